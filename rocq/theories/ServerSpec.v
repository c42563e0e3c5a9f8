(** Specification vocabulary for the server. *)
From stdpp Require Import gmap strings list.
From Verif Require Import TextLib JsonLib SerdeLib TypesModel RpcModel ManagersModel ServerModel.

(** The requests among the events, and runs without failures. *)
Definition request_id_of (e : event) : option rid := match e with EMessage (MsgRequest id _) _ => Some id | _ => None end.
Definition request_ids (es : list event) : list rid := omap request_id_of es.
Definition is_message (e : event) : bool := match e with EMessage _ _ => true | _ => false end.
Definition no_failure (es : list event) : Prop :=
  Forall (λ e, match e with EMessage _ ok => ok = true | EReceiveError => False | _ => True end) es.
Definition never_panics (behave : list invocation → hresult) : Prop := ∀ calls, behave calls ≠ HPanic.
(** The capabilities sent with an initialize request. *)
Definition initialize_of (e : event) : option json :=
  match e with EMessage (MsgRequest _ (RClient CInitialize p)) _ => Some (field "capabilities" p) | _ => None end.

(** What a builder was told last. *)
Definition told {A} (f : bop → option A) (os : list bop) : option A := last (omap f os).
Definition tool_of (n : list N) (o : bop) : option nat := match o with BTool m h => if decide (m = n) then Some h else None | _ => None end.
Definition prompt_of (n : list N) (o : bop) : option nat := match o with BPrompt m h => if decide (m = n) then Some h else None | _ => None end.
Definition resources_of (o : bop) : option nat := match o with BResources h => Some h | _ => None end.
Definition sampling_of (o : bop) : option nat := match o with BSampling h => Some h | _ => None end.
Definition name_of (o : bop) : option (list N) := match o with BName s => Some s | _ => None end.
Definition version_of (o : bop) : option (list N) := match o with BVersion s => Some s | _ => None end.

(** The handler a request has to reach and the arguments it has to get. *)
Definition call_params (name : list N) (args : json) : json := JObj [(lit "name", JStr name); (lit "arguments", args)].
Definition destination (os : list bop) (r : request) : option (hkind * nat * json) :=
  match r with
  | RClient CCallTool (JObj [(_, JStr name); (_, args)]) => (λ h, (KTool, h, args)) <$> told (tool_of name) os
  | RClient CGetPrompt (JObj [(_, JStr name); (_, args)]) => (λ h, (KPrompt, h, args)) <$> told (prompt_of name) os
  | RClient CListResources (JObj l) => (λ h, (KResources, h, match l with (_, c) :: _ => c | [] => JNull end)) <$> told resources_of os
  | RClient CReadResource (JObj [(_, uri)]) => (λ h, (KRead, h, uri)) <$> told resources_of os
  | RClient CCreateMessage p => (λ h, (KSampling, h, p)) <$> told sampling_of os
  | _ => None
  end.
Definition invoked (i : invocation) : hkind * nat * json := (i_kind i, i_handler i, i_args i).

(** Notifications. *)
Section tasks.
  Context {M R P : Type}.
  Definition posts (os : list (@tstep M R P)) : list P := omap (λ o, match o with TPost n => Some n | _ => None end) os.
  Definition handled (os : list (@tstep M R P)) : list R := omap (λ o, match o with THandled r => Some r | _ => None end) os.
  Definition notified (w : list (@sending R P)) : list P := omap (λ x, match x with SNotification n => Some n | _ => None end) w.
  Definition responded (w : list (@sending R P)) : list R := omap (λ x, match x with SResponse r => Some r | _ => None end) w.
  Definition arrives (o : @tstep M R P) : bool := match o with TArrive _ => true | _ => false end.
  (** nothing arrives from the client *)
  Definition silent (os : list (@tstep M R P)) : Prop := Forall (λ o, arrives o = false) os.
End tasks.
