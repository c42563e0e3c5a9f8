(** What discovery and token requests are to do. *)
From stdpp Require Import sets list strings.
From Verif Require Import ListLib TextLib Utf8Lib JsonLib RpcModel UriSpec SimdSpec OidcModel.
Local Open Scope N_scope.

(** Words that mark a failure as temporary. *)
Definition temporary_words : list (list N) := [lit "CORS"; lit "network"; lit "timeout"; lit "connection"].
Definition speaks_of (t w : list N) : Prop := ∃ a b, t = a ++ w ++ b.
Definition sounds_temporary (t : list N) : Prop := ∃ w, w ∈ temporary_words ∧ speaks_of t w.
(** The statuses of success, RFC 9110 15.3 *)
Definition success (z : N) : Prop := 200 <= z <= 299.
(** The words a failed request is judged by: what is said of the failure, the status line of a refusal. *)
Definition reason_of (r : areply) : list N :=
  match r with AFailed why => why | AReply z reason _ why => if (200 <=? z) && (z <=? 299) then why else show_N z ++ lit " " ++ reason end.
(** A failure after which another request is worth it: a timeout, or an error whose text has one of the
    words in it.  C134_temporary says what that means for replies. *)
Definition temporary (o : api_error + json) : Prop := ∃ e, o = inl e ∧ ((∃ ms, e = ETimeout ms) ∨ sounds_temporary (error_display e)).
(** Of the outcomes of successive attempts, at most [max] of them made: the one that counts is the first
    that is a success, is a lasting failure, or is the last attempt allowed. *)
Definition decisive {A} (temporary : A → Prop) (max : nat) (outcome : nat → A) (n : nat) : Prop :=
  (n < max)%nat ∧ (∀ i, (i < n)%nat → temporary (outcome i)) ∧ (¬ temporary (outcome n) ∨ S n = max).
(** The slashes at the end do not matter. *)
Definition same_issuer (u v : list N) : Prop := ∃ w a b, u = w ++ replicate a 47 ∧ v = w ++ replicate b 47.

(** Reading a form body (WHATWG URL, application/x-www-form-urlencoded parsing). *)
Fixpoint form_bytes (t : list N) : option (list N) :=
  match t with
  | [] => Some []
  | c :: t1 =>
    if c =? 37 then
      match t1 with
      | a :: b :: t2 => match hex_value a, hex_value b, form_bytes t2 with Some x, Some y, Some r => Some (16 * x + y :: r) | _, _, _ => None end
      | _ => None
      end
    else match form_bytes t1 with Some r => Some ((if c =? 43 then 32 else c) :: r) | None => None end
  end.
Definition form_value (t : list N) : option (list N) := match form_bytes t with Some b => utf8_decode b | None => None end.
Definition form_field (t : list N) : option (list N * list N) :=
  match split_once 61 t with
  | Some (a, b) => match form_value a, form_value b with Some x, Some y => Some (x, y) | _, _ => None end
  | None => None
  end.
Definition form_fields (body : list N) : option (list (list N * list N)) := mapM form_field (split_on 38 body).
(** The parameters RFC 6749 prescribes: 4.1.3 with RFC 7636 4.5, and 6. *)
Definition code_parameters (code id redirect : list N) (verifier : option (list N)) : list (list N * list N) :=
  (lit "grant_type", lit "authorization_code") :: (lit "code", code) :: (lit "client_id", id) :: (lit "redirect_uri", redirect) ::
  option_list ((λ v, (lit "code_verifier", v)) <$> verifier).
Definition refresh_parameters (token id : list N) (scope : option (list N)) : list (list N * list N) :=
  (lit "grant_type", lit "refresh_token") :: (lit "refresh_token", token) :: (lit "client_id", id) ::
  option_list ((λ v, (lit "scope", v)) <$> scope).
(** Reading a Basic authorization header: RFC 7617, the id ends at the first colon. *)
Definition basic_parts (h : list N) : option (list N * list N) :=
  if decide (take 6 h = lit "Basic ") then match base64_decode (drop 6 h) with Some b => split_once 58 b | None => None end else None.
Definition both {A B} (f : A → option B) (p : option (A * A)) : option (B * B) :=
  match p with Some (x, y) => match f x, f y with Some i, Some s => Some (i, s) | _, _ => None end | None => None end.
Definition credentials (h : list N) : option (list N * list N) := both utf8_decode (basic_parts h).
(** As RFC 6749 2.3.1 has it: both parts are form-encoded before that. *)
Definition oauth_credentials (h : list N) : option (list N * list N) := both form_value (basic_parts h).
