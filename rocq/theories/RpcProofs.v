(** Proofs for the JSON-RPC and typed-message properties. *)
From stdpp Require Import sets list strings.
From Verif Require Import ListLib TextLib Utf8Lib JsonLib SerdeLib TypesModel RpcModel RpcSpec.
Local Open Scope N_scope.

(** Looking fields up by literal names. *)
Ltac look := repeat (cbn [assoc app opt_field]; first
  [ rewrite decide_True by reflexivity | rewrite decide_False by (vm_compute; discriminate) ]); cbn [assoc app opt_field].

(** *** Types *)
Lemma protocol_types_ok : Forall ty_ok protocol_types.
Proof. repeat constructor. Qed.
Lemma rpc_request_ok : ty_ok t_rpc_request. Proof. repeat constructor. Qed.
Lemma rpc_notification_ok : ty_ok t_rpc_notification. Proof. repeat constructor. Qed.
Lemma rpc_error_ok : ty_ok t_rpc_error. Proof. repeat constructor. Qed.
Lemma raw_message_ok : ty_ok t_raw_message. Proof. repeat constructor. Qed.
Lemma types_roundtrip t v : t ∈ protocol_types → is_of t v → storable v → of_bytes (to_bytes v) ≫= decode t = Some v.
Proof.
  intros Ht Hv Hs. rewrite of_to_bytes by done. cbn. apply decode_is_of; [|done].
  pose proof protocol_types_ok as H. rewrite Forall_forall in H. by apply H.
Qed.
Lemma types_sound t v w : t ∈ protocol_types → keys_ok v → decode t v = Some w → is_of t w.
Proof.
  intros Ht. apply decode_sound.
  pose proof protocol_types_ok as H. rewrite Forall_forall in H. by apply H.
Qed.
Lemma dec_fields_agree dec fs l l' : agree_on fs.*1 l l' → dec_fields dec fs l = dec_fields dec fs l'.
Proof.
  induction fs as [|[n [k t]] fs IH]; [done|]. intros H. cbn [dec_fields].
  rewrite (H n) by left. rewrite IH; [done|]. intros m Hm. apply H. by right.
Qed.
Lemma struct_agree fs l l' : agree_on fs.*1 l l' → decode (struct fs) (JObj l) = decode (struct fs) (JObj l').
Proof. intros H. cbn. by rewrite (dec_fields_agree decode fs l l'). Qed.

(** *** Ids *)
Lemma rid_roundtrip i : rid_ok i → rid_of_json (rid_json i) = Some i.
Proof.
  destruct i as [s|z]; [done|]. cbn. unfold i64_min, i64_max. intros Hz. unfold rid_of_json. cbn.
  by assert (((-9223372036854775808 <=? z) && (z <=? 9223372036854775807))%Z = true) as -> by lia.
Qed.
Lemma rid_is_of i : rid_ok i → is_of t_request_id (rid_json i).
Proof. destruct i as [s|z]; cbn; unfold i64_min, i64_max; eauto. Qed.
Lemma rid_not_null i : rid_json i ≠ JNull.
Proof. by destruct i. Qed.
Lemma rid_u64_inj a b : (Z.of_N a <= i64_max)%Z → (Z.of_N b <= i64_max)%Z → rid_of_u64 a = rid_of_u64 b → a = b.
Proof.
  unfold rid_of_u64. intros Ha Hb.
  assert ((Z.of_N a <=? i64_max)%Z = true) as -> by lia. assert ((Z.of_N b <=? i64_max)%Z = true) as -> by lia.
  intros; simplify_eq. lia.
Qed.
Lemma rid_u64_clash a : (i64_max <= Z.of_N a)%Z → rid_of_u64 a = IdNum i64_max.
Proof.
  unfold rid_of_u64. intros Ha. destruct (Z.of_N a <=? i64_max)%Z eqn:E; [|done]. f_equal. lia.
Qed.

(** *** Envelopes *)
Ltac fields := repeat first [ eexists; eexists; split; [reflexivity|] | split ].
Lemma opt_field_layout n t o : o ≠ Some JNull → (∀ v, o = Some v → is_of t v) →
  layout is_of [opt n t] (opt_field n o).
Proof.
  intros Ho Ht. destruct o as [v|]; cbn [opt_field].
  - cbn. right. exists v, []. repeat split; eauto. by intros ->.
  - by left.
Qed.
Lemma layout_req n t fs v l : is_of t v → layout is_of fs l → layout is_of (req n t :: fs) ((lit n, v) :: l).
Proof. intros ? ?. cbn. eauto. Qed.
Lemma decode_struct fs l : ty_ok (struct fs) → layout is_of fs l → decode (struct fs) (JObj l) = Some (JObj l).
Proof.
  intros Hok Hl. apply decode_is_of; [done|]. exists l, []. rewrite app_nil_r. done.
Qed.
Lemma request_roundtrip q : rid_ok (rq_id q) → rq_params q ≠ Some JNull → request_of_json (request_json q) = Some q.
Proof.
  intros Hi Hp. unfold request_of_json, request_json, t_rpc_request.
  rewrite decode_struct; [|exact rpc_request_ok|].
  - destruct q as [j i m [p|]]; cbn [rq_jsonrpc rq_id rq_method rq_params] in *; unfold str_field; look;
      cbn [mbind option_bind]; by rewrite rid_roundtrip.
  - cbn [app]. apply layout_req; [by eexists|]. apply layout_req; [by apply rid_is_of|]. apply layout_req; [by eexists|].
    by apply opt_field_layout.
Qed.
Lemma notification_roundtrip q : rn_params q ≠ Some JNull → notification_of_json (notification_json q) = Some q.
Proof.
  intros Hp. unfold notification_of_json, notification_json, t_rpc_notification.
  rewrite decode_struct; [|exact rpc_notification_ok|].
  - destruct q as [j m [p|]]; cbn [rn_jsonrpc rn_method rn_params] in *; unfold str_field; look; done.
  - cbn [app]. apply layout_req; [by eexists|]. apply layout_req; [by eexists|].
    by apply opt_field_layout.
Qed.
Lemma error_layout e : i32_ok (er_code e) → er_data e ≠ Some JNull →
  layout is_of [req "code" t_i32; req "message" TStr; opt "data" TAny]
    ([(lit "code", JInt (er_code e)); (lit "message", JStr (er_message e))] ++ opt_field "data" (er_data e)).
Proof.
  intros Hc Hd. cbn [app]. apply layout_req; [by eexists|]. apply layout_req; [by eexists|].
  by apply opt_field_layout.
Qed.
Lemma error_roundtrip e : i32_ok (er_code e) → er_data e ≠ Some JNull → error_of_json (error_json e) = Some e.
Proof.
  intros Hc Hd. unfold error_of_json, error_json, t_rpc_error.
  rewrite decode_struct; [|exact rpc_error_ok|by apply error_layout].
  destruct e as [c m [d|]]; cbn [er_code er_message er_data]; unfold str_field; look; done.
Qed.
Lemma response_roundtrip r : good_response r → response_of_json (response_json r) = Some r.
Proof.
  intros [Hi Hp]. unfold response_of_json, response_json. destruct r as [j i [v|e]]; cbn [rs_payload rs_id rs_jsonrpc] in *.
  - unfold str_field. cbn [find_payload]. look. cbn [mbind option_bind]. by rewrite rid_roundtrip.
  - destruct Hp as [Hc Hd]. unfold str_field. cbn [find_payload]. look. cbn [mbind option_bind].
    rewrite rid_roundtrip by done. by rewrite error_roundtrip.
Qed.
(** null in an optional field is read as absent *)
Lemma request_null_params j i m : rid_ok i →
  request_of_json (request_json {| rq_jsonrpc := j; rq_id := i; rq_method := m; rq_params := Some JNull |})
  = Some {| rq_jsonrpc := j; rq_id := i; rq_method := m; rq_params := None |}.
Proof.
  intros Hi. unfold request_of_json, request_json, t_rpc_request, struct, req, opt, str_field.
  cbn [decode dec_fields rq_jsonrpc rq_id rq_method rq_params]. look. cbn [field_dec put fmap option_fmap option_map].
  rewrite (decode_is_of t_request_id) by (done || by apply rid_is_of). cbn [decode fmap option_fmap option_map put rest_of].
  look. cbn [mbind option_bind]. by rewrite rid_roundtrip.
Qed.
Lemma error_null_data c m : i32_ok c →
  error_of_json (error_json {| er_code := c; er_message := m; er_data := Some JNull |})
  = Some {| er_code := c; er_message := m; er_data := None |}.
Proof.
  unfold i32_ok. intros Hc. unfold error_of_json, error_json, t_rpc_error, struct, req, opt, str_field.
  cbn [decode dec_fields er_code er_message er_data]. look. unfold t_i32. cbn [field_dec put fmap option_fmap option_map decode].
  assert (((-2147483648 <=? c) && (c <=? 2147483647))%Z = true) as -> by lia.
  cbn [fmap option_fmap option_map put rest_of]. look. done.
Qed.

(** *** Classification *)
Lemma assoc_opt n o : assoc (lit n) (opt_field n o) = o.
Proof. destruct o; cbn [opt_field assoc]; [|done]. by rewrite decide_True. Qed.
Lemma id_field i : rid_ok i → field_dec (decode t_request_id) Opt (Some (rid_json i)) = Some (Some (rid_json i)).
Proof.
  intros Hi. pose proof (decode_is_of t_request_id I _ (rid_is_of i Hi)) as E. destruct i; cbn [field_dec rid_json] in *; by rewrite E.
Qed.
Ltac raw := unfold classify, t_raw_message, struct, req, opt; cbn [decode dec_fields]; look.
Lemma classify_request q : rid_ok (rq_id q) → classify (request_json q) = Some MRequest.
Proof.
  intros Hi. destruct q as [j i m p]. unfold request_json. cbn [rq_jsonrpc rq_id rq_method rq_params] in *.
  destruct p as [p|]; raw; rewrite id_field by done; cbn [field_dec decode fmap option_fmap option_map put rest_of].
  - destruct p; cbn [field_dec decode fmap option_fmap option_map put rest_of]; look; done.
  - look; done.
Qed.
Lemma classify_notification q : classify (notification_json q) = Some MNotification.
Proof.
  destruct q as [j m [p|]]; unfold notification_json; cbn [rn_jsonrpc rn_method rn_params]; raw;
    cbn [field_dec decode fmap option_fmap option_map put rest_of].
  - destruct p; cbn [field_dec decode fmap option_fmap option_map put rest_of]; look; done.
  - look; done.
Qed.
Lemma classify_response r : good_response r → rs_payload r ≠ PResult JNull →
  classify (response_json r) = Some (match rs_payload r with PResult _ => MResponse | PError _ => MErrorResponse end).
Proof.
  intros [Hi Hp] Hn. destruct r as [j i p]. unfold response_json. cbn [rs_jsonrpc rs_id rs_payload] in *.
  destruct p as [v|e].
  - raw. rewrite id_field by done. destruct v; try done; cbn [field_dec decode fmap option_fmap option_map put rest_of]; look; done.
  - destruct Hp as [Hc Hd].
    assert (H2 : field_dec (decode t_rpc_error) Opt (Some (error_json e)) = Some (Some (error_json e))).
    { unfold error_json. cbn [field_dec]. rewrite decode_is_of; [done|exact rpc_error_ok|].
      eexists _, []. rewrite app_nil_r. split; [reflexivity|]. split; [by apply error_layout|done]. }
    raw. rewrite id_field by done. rewrite H2. cbn [field_dec decode fmap option_fmap option_map put rest_of]. look. done.
Qed.
Lemma classify_null_result j i : rid_ok i →
  classify (response_json {| rs_jsonrpc := j; rs_id := i; rs_payload := PResult JNull |}) = Some MInvalid.
Proof.
  intros Hi. unfold response_json. cbn [rs_jsonrpc rs_id rs_payload] in *.
  raw. rewrite id_field by done. cbn [field_dec decode fmap option_fmap option_map put rest_of]. look. done.
Qed.

(** *** Error codes *)
Lemma code_of_i32_id c : code_of_i32 c = c ↔ ¬ unnamed_server_code c.
Proof.
  unfold code_of_i32, unnamed_server_code, standard_code, mcp_code, server_range.
  rewrite !not_elem_of_cons. split.
  - intros H [H1 H2]. revert H. repeat case_bool_decide; cbn; try lia.
    assert (((-32099 <=? c) && (c <=? -32000))%Z = true) as -> by lia. lia.
  - intros H. repeat case_bool_decide; cbn; try lia.
    destruct (_ && _)%Z eqn:E; [|done]. exfalso. apply H. split; [lia|]. repeat split; try lia. apply not_elem_of_nil.
Qed.
Lemma api_error_roundtrip c m d : of_rpc_error (to_rpc_error (EProtocol c m d)) = EProtocol c m d ↔ ¬ unnamed_server_code c.
Proof.
  cbn. unfold of_rpc_error. cbn. rewrite <-code_of_i32_id. split; [by intros [= ->]|by intros ->].
Qed.

(** *** Typed requests *)
Section adj.
  Context {A} (tag : A → list N) (bd : A → body).
  Lemma adjacent_hit all a p : NoDup (tag <$> all) → a ∈ all → adjacent tag bd all (tag a) p = pair a <$> body_of (bd a) p.
  Proof.
    intros Hnd. induction 1 as [a all|a b all Ha IH]; cbn [adjacent]; [by rewrite decide_True|].
    rewrite fmap_cons, NoDup_cons in Hnd. destruct Hnd as [Hb Hnd].
    rewrite decide_False; [auto|]. intros E. apply Hb. rewrite <-E. by apply elem_of_list_fmap_1.
  Qed.
  Lemma adjacent_miss all m p : m ∉ tag <$> all → adjacent tag bd all m p = None.
  Proof.
    induction all as [|a all IH]; [done|]. rewrite fmap_cons, not_elem_of_cons. intros [? ?]. cbn [adjacent].
    rewrite decide_False by done. auto.
  Qed.
  Lemma adjacent_inv all m p a b : adjacent tag bd all m p = Some (a, b) → m = tag a ∧ body_of (bd a) p = Some b.
  Proof.
    induction all as [|x all IH]; cbn [adjacent]; [done|]. case_decide; [|done].
    intros (y & Hy & ?)%fmap_Some. simplify_eq. done.
  Qed.
End adj.
Lemma NoDup_dec_true (l : list (list N)) : nodupb l = true → NoDup l.
Proof. apply nodupb_NoDup. Qed.
Lemma creq_tags : NoDup (creq_tag <$> creqs). Proof. apply nodupb_NoDup. by vm_compute. Qed.
Lemma sreq_tags : NoDup (sreq_tag <$> sreqs). Proof. apply nodupb_NoDup. by vm_compute. Qed.
Lemma cnot_tags : NoDup (cnot_tag <$> cnots). Proof. apply nodupb_NoDup. by vm_compute. Qed.
Lemma snot_tags : NoDup (snot_tag <$> snots). Proof. apply nodupb_NoDup. by vm_compute. Qed.
Lemma creq_all c : c ∈ creqs. Proof. destruct c; unfold creqs; repeat (first [apply elem_of_list_here | apply elem_of_list_further]). Qed.
Lemma sreq_all c : c ∈ sreqs. Proof. destruct c; unfold sreqs; repeat (first [apply elem_of_list_here | apply elem_of_list_further]). Qed.
Lemma cnot_all c : c ∈ cnots. Proof. destruct c; unfold cnots; repeat (first [apply elem_of_list_here | apply elem_of_list_further]). Qed.
Lemma snot_all c : c ∈ snots. Proof. destruct c; unfold snots; repeat (first [apply elem_of_list_here | apply elem_of_list_further]). Qed.
Definition body_ty_ok (b : body) : Prop := match b with BUnit => True | BTy t => ty_ok t end.
Lemma creq_body_ok c : body_ty_ok (creq_body c). Proof. destruct c; repeat constructor. Qed.
Lemma sreq_body_ok c : body_ty_ok (sreq_body c). Proof. destruct c; repeat constructor. Qed.
Lemma cnot_body_ok c : body_ty_ok (cnot_body c). Proof. destruct c; repeat constructor. Qed.
Lemma snot_body_ok c : body_ty_ok (snot_body c). Proof. destruct c; repeat constructor. Qed.
Lemma progress_ok : ty_ok t_progress. Proof. repeat constructor. Qed.
Lemma cancelled_ok : ty_ok t_cancelled. Proof. repeat constructor. Qed.
Lemma body_roundtrip b p : body_ty_ok b → holds b p → body_of b p = Some p.
Proof. destruct b as [|t]; cbn; [by intros _ ->|]. intros. by apply decode_is_of. Qed.
Lemma body_sound b p q : body_ty_ok b → keys_ok p → body_of b p = Some q → holds b q.
Proof. destruct b as [|t]; cbn; [destruct p; naive_solver|]. intros ? ? ?. by eapply decode_sound. Qed.
Lemma client_wire_params c p : holds (creq_body c) p → client_wire c p = (creq_tag c, (client_wire c p).2) ∧ or_null (client_wire c p).2 = p.
Proof. destruct c; cbn [client_wire snd or_null creq_tag creq_body holds]; intros H; split; try done. Qed.

Lemma request_back id r : good_request r → one_sided r → parse_request (create_request id r) = Some (id, r).
Proof.
  intros Hg Ho. unfold create_request, parse_request. destruct r as [c p|s p].
  - destruct (client_wire_params c p Hg) as [E1 E2]. rewrite E1. cbn [new_request rq_params rq_method rq_id]. rewrite E2.
    unfold parse_client_request. rewrite adjacent_hit; [|exact creq_tags|apply creq_all].
    rewrite body_roundtrip; [done|apply creq_body_ok|done].
  - destruct s; try done. cbn in Hg. subst p. done.
Qed.
Lemma create_message_back id p : is_of t_create_message p →
  parse_request (create_request id (RServer SCreateMessage p)) = Some (id, RClient CCreateMessage p).
Proof.
  intros Hp. unfold create_request, parse_request. cbn [server_wire new_request rq_params rq_method rq_id or_null].
  unfold parse_client_request.
  rewrite (adjacent_hit creq_tag creq_body creqs CCreateMessage); [|exact creq_tags|apply creq_all].
  rewrite body_roundtrip; [done|apply (creq_body_ok CCreateMessage)|done].
Qed.
Lemma elicit_lost id p : parse_request (create_request id (RServer SElicitInput p)) = None.
Proof. done. Qed.
Lemma request_sound q id r : (∀ p, rq_params q = Some p → keys_ok p) → parse_request q = Some (id, r) →
  id = rq_id q ∧ good_request r ∧ rq_method q = request_name r.
Proof.
  intros Hk. unfold parse_request. assert (Hn : keys_ok (or_null (rq_params q))).
  { destruct (rq_params q); cbn; eauto. }
  destruct (parse_client_request _ _) as [[c b]|] eqn:E.
  - intros; simplify_eq. apply adjacent_inv in E as [Em Eb]. split; [done|]. split; [|done].
    eapply body_sound; [apply creq_body_ok|exact Hn|done].
  - destruct (parse_server_request _ _) as [[c b]|] eqn:E2; [|done].
    intros; simplify_eq. apply adjacent_inv in E2 as [Em Eb]. split; [done|]. split; [|done].
    eapply body_sound; [apply sreq_body_ok|exact Hn|done].
Qed.
Lemma request_names_distinct r1 r2 : request_name r1 = request_name r2 →
  match r1, r2 with
  | RClient a _, RClient b _ => a = b
  | RServer a _, RServer b _ => a = b
  | RClient a _, RServer b _ => a = CCreateMessage ∧ b = SCreateMessage
  | RServer a _, RClient b _ => a = SCreateMessage ∧ b = CCreateMessage
  end.
Proof. destruct r1 as [a p|a p], r2 as [b q|b q]; destruct a, b; cbn [request_name]; intros H; done || by vm_compute in H. Qed.
Lemma params_omitted id c t : creq_body c = BTy t → parse_request (new_request id (creq_tag c) None) = None.
Proof. destruct c; intros H; done. Qed.
Lemma ping_params id p : p ≠ JNull → parse_request (new_request id (creq_tag CPing) (Some p)) = None.
Proof. intros Hp. destruct p; done. Qed.
Lemma list_params id c l v : creq_body c = BTy t_list_request →
  assoc (lit "cursor") l = v → (v = None ∨ v = Some JNull ∨ ∃ s, v = Some (JStr s)) →
  parse_request (new_request id (creq_tag c) (Some (JObj l)))
  = Some (id, RClient c (JObj (match v with Some (JStr s) => [(lit "cursor", JStr s)] | _ => [] end))).
Proof.
  intros Hc Hl Hv. unfold parse_request, parse_client_request. cbn [new_request rq_method rq_params or_null rq_id].
  rewrite adjacent_hit; [|exact creq_tags|apply creq_all]. rewrite Hc. unfold body_of.
  cbn [decode t_list_request struct dec_fields opt rest_of]. rewrite Hl.
  destruct Hv as [->|[->|[s ->]]]; done.
Qed.

Lemma cnot_wire_params c p : holds (cnot_body c) p → cnot_wire c p = (cnot_tag c, (cnot_wire c p).2) ∧ or_null (cnot_wire c p).2 = p ∧ (cnot_wire c p).2 ≠ Some JNull.
Proof. destruct c; cbn [cnot_wire snd or_null cnot_tag cnot_body holds]; intros H; split; try done. all: split; [done|]; intros [= ->]; by destruct H as (? & ? & ? & _). Qed.
Lemma snot_wire_params c p : holds (snot_body c) p → snot_wire c p = (snot_tag c, (snot_wire c p).2) ∧ or_null (snot_wire c p).2 = p ∧ (snot_wire c p).2 ≠ Some JNull.
Proof. destruct c; cbn [snot_wire snd or_null snot_tag snot_body holds]; intros H; split; try done. all: split; [done|]; intros [= ->]; by destruct H as (? & ? & ? & _). Qed.
Lemma struct_not_null m fs p : is_of (TStruct m fs) p → p ≠ JNull.
Proof. intros (? & ? & -> & _). done. Qed.
Lemma notification_back n : good_notification n →
  parse_notification (notification_json (create_notification n)) = Some (seen_as n).
Proof.
  intros Hg. unfold parse_notification. rewrite notification_roundtrip.
  2: { destruct n as [c p|s p|p|p]; unfold create_notification.
       - destruct (cnot_wire_params c p Hg) as (-> & _ & ?). done.
       - destruct (snot_wire_params s p Hg) as (-> & _ & ?). done.
       - cbn. intros [= ->]. by destruct (struct_not_null _ _ _ Hg).
       - cbn. intros [= ->]. by destruct (struct_not_null _ _ _ Hg). }
  assert (Hp : ∀ p, is_of t_progress p → decode t_progress p = Some p) by (intros; apply decode_is_of; [exact progress_ok|done]).
  assert (Hc : ∀ p, is_of t_cancelled p → decode t_cancelled p = Some p) by (intros; apply decode_is_of; [exact cancelled_ok|done]).
  destruct n as [c p|s p|p|p]; unfold create_notification.
  - pose proof (cnot_wire_params c p Hg) as (E1 & E2 & _). rewrite E1. cbn [new_notification rn_method rn_params]. rewrite E2.
    destruct c.
    + rewrite decide_False by done. rewrite decide_False by done. cbn in Hg. subst p. done.
    + rewrite decide_False by done. rewrite decide_False by done. cbn in Hg. subst p. done.
    + rewrite decide_False by done. rewrite decide_True by done. by rewrite (Hc _ Hg).
    + rewrite decide_True by done. by rewrite (Hp _ Hg).
  - pose proof (snot_wire_params s p Hg) as (E1 & E2 & _). rewrite E1. cbn [new_notification rn_method rn_params]. rewrite E2.
    destruct s; [rewrite decide_True by done; by rewrite (Hp _ Hg)| | | | | |].
    all: rewrite decide_False by done; rewrite decide_False by done.
    1-4: cbn in Hg; subst p; done.
    all: match goal with |- context[parse_client_notification ?a ?b] => replace (parse_client_notification a b) with (@None (cnot * json)) by done end; unfold parse_server_notification.
    all: rewrite adjacent_hit; [|exact snot_tags|apply snot_all].
    all: rewrite body_roundtrip; [done|apply snot_body_ok|done].
  - cbn [new_notification rn_method rn_params or_null]. rewrite decide_True by done. by rewrite (Hp _ Hg).
  - cbn [new_notification rn_method rn_params or_null]. rewrite decide_False by done. rewrite decide_True by done. by rewrite (Hc _ Hg).
Qed.

(** *** Whole messages *)
Ltac key k b := match goal with |- context[has_key k ?v] => replace (has_key k v) with b by done end.
Lemma create_request_params id r : good_request r → rq_params (create_request id r) ≠ Some JNull.
Proof.
  unfold create_request. destruct r as [c p|s p]; [destruct c|destruct s]; cbn; intros H; try done.
  all: intros [= ->]; by destruct H as (? & ? & ? & _).
Qed.
Lemma create_request_id id r : rq_id (create_request id r) = id.
Proof. unfold create_request. destruct r as [c p|s p]; [destruct c|destruct s]; done. Qed.
Lemma message_back m : good_message m → not_elicitation m → message_of_json (message_json m) = Some (msg_seen_as m).
Proof.
  destruct m as [i r|r|n]; cbn [good_message message_json].
  - intros [Hi Hg] Hn. unfold message_of_json.
    key "method"%string true. key "id"%string true.
    rewrite request_roundtrip; [|by rewrite create_request_id|by apply create_request_params].
    destruct r as [c p|[] p]; [by rewrite request_back| |by rewrite request_back|done].
    by rewrite create_message_back.
  - intros Hg _. unfold message_of_json.
    assert (has_key "method" (response_json r) = false) as -> by (destruct r as [j i [v|e]]; done).
    assert (has_key "result" (response_json r) || has_key "error" (response_json r) = true) as -> by (destruct r as [j i [v|e]]; done).
    by rewrite response_roundtrip.
  - intros Hg _. unfold message_of_json.
    key "method"%string true.
    assert (has_key "id" (notification_json (create_notification n)) = false) as ->.
    { unfold notification_json. by destruct (rn_params _). }
    by rewrite notification_back.
Qed.
Lemma message_bytes m : good_message m → not_elicitation m → storable (message_json m) →
  parse_message (serialize_message m) = Some (msg_seen_as m).
Proof. intros. unfold parse_message, serialize_message. rewrite of_to_bytes by done. by apply message_back. Qed.
Lemma elicitation_message_lost i p : rid_ok i → is_of t_elicit_request p → storable (message_json (MsgRequest i (RServer SElicitInput p))) →
  parse_message (serialize_message (MsgRequest i (RServer SElicitInput p))) = None.
Proof.
  intros Hi Hp Hs. unfold parse_message, serialize_message. rewrite of_to_bytes by done. cbn [mbind option_bind].
  unfold message_of_json. cbn [message_json].
  key "method"%string true. key "id"%string true.
  rewrite request_roundtrip; [|done|cbn; intros [= ->]; by destruct (struct_not_null _ _ _ Hp)].
  by rewrite elicit_lost.
Qed.

Lemma version_unchecked j :
  (∀ q, rid_ok (rq_id q) → rq_params q ≠ Some JNull →
     message_of_json (request_json {| rq_jsonrpc := j; rq_id := rq_id q; rq_method := rq_method q; rq_params := rq_params q |})
     = message_of_json (request_json q)) ∧
  (∀ r, good_response r →
     message_of_json (response_json {| rs_jsonrpc := j; rs_id := rs_id r; rs_payload := rs_payload r |})
     = Some (MsgResponse {| rs_jsonrpc := j; rs_id := rs_id r; rs_payload := rs_payload r |})).
Proof.
  split.
  - intros q Hi Hp. unfold message_of_json. do 2 (key "method"%string true; key "id"%string true).
    by rewrite !request_roundtrip.
  - intros r Hg. apply (message_back (MsgResponse {| rs_jsonrpc := j; rs_id := rs_id r; rs_payload := rs_payload r |})); [|done].
    exact Hg.
Qed.

(** *** Fields that may be left out *)
Definition flag_ok (k : fkind) (t : ty) : Prop := match k, t with Def d, TBool => d = JBool false | _, _ => True end.
Fixpoint flags_ok (t : ty) : Prop :=
  match t with
  | TVec t | TMap t => flags_ok t
  | TEnum us ns => (fix go (ns : list (list N * ty)) := match ns with [] => True | (_, t) :: ns => flags_ok t ∧ go ns end) ns
  | TStruct m fs => (fix go (fs : list (list N * (fkind * ty))) := match fs with [] => True | (_, (k, t)) :: fs => (flags_ok t ∧ flag_ok k t) ∧ go fs end) fs
  | TTag tag vs => (fix gov (vs : list (list N * list (list N * (fkind * ty)))) := match vs with [] => True | (_, fs) :: vs =>
      (fix go (fs : list (list N * (fkind * ty))) := match fs with [] => True | (_, (k, t)) :: fs => (flags_ok t ∧ flag_ok k t) ∧ go fs end) fs ∧ gov vs end) vs
  | _ => True
  end.
Lemma protocol_flags : Forall flags_ok protocol_types.
Proof. repeat constructor. Qed.
Lemma flags_field m fs n k t : flags_ok (TStruct m fs) → (n, (k, t)) ∈ fs → flags_ok t ∧ flag_ok k t.
Proof.
  cbn [flags_ok]. induction fs as [|[n' [k' t']] fs IH]; intros Hf Hi; [by inversion Hi|]. destruct Hf as [H1 H2].
  apply elem_of_cons in Hi as [[= -> -> ->]|Hi]; [done|]. by apply IH.
Qed.
Lemma flags_inside t t' : inside t t' → flags_ok t' → flags_ok t.
Proof.
  induction 1 as [t|t t' _ IH|t t' _ IH|t t' m fs n k Hi _ IH|t t' tag vs v fs n k Hv Hi _ IH|t t' us ns n Hi _ IH]; intros Hf; [done|by apply IH|by apply IH| | |]; apply IH.
  - by destruct (flags_field m fs n k t' Hf Hi).
  - cbn [flags_ok] in Hf. induction vs as [|[v' fs'] vs IHv]; [by inversion Hv|]. destruct Hf as [H1 H2].
    apply elem_of_cons in Hv as [[= -> ->]|Hv]; [|by apply IHv]. by destruct (flags_field MapOrSeq fs' n k t' H1 Hi).
  - cbn [flags_ok] in Hf. induction ns as [|[n' t''] ns IHn]; [by inversion Hi|]. destruct Hf as [H1 H2].
    apply elem_of_cons in Hi as [[= -> ->]|Hi]; [done|by apply IHn].
Qed.
Lemma ok_inside t t' : inside t t' → ty_ok t' → ty_ok t.
Proof.
  induction 1 as [t|t t' _ IH|t t' _ IH|t t' m fs n k Hi _ IH|t t' tag vs v fs n k Hv Hi _ IH|t t' us ns n Hi _ IH]; intros Hf; [done|by apply IH|by apply IH| | |]; apply IH.
  - apply ty_ok_struct in Hf as [_ Hf]. by apply (proj1 (Forall_forall _ _) Hf _ Hi).
  - apply ty_ok_tag in Hf as [_ Hf]. apply (proj1 (Forall_forall _ _) Hf) in Hv as [_ Hv]. by apply (proj1 (Forall_forall _ _) Hv _ Hi).
  - apply ty_ok_enum in Hf as [_ Hf]. by apply (proj1 (Forall_forall _ _) Hf _ Hi).
Qed.
Lemma default_left_out m fs n d t l : NoDup fs.*1 → (n, (Def d, t)) ∈ fs → decode t d = Some d → assoc n l = None → rest_of m fs ((n, d) :: l) = rest_of m fs l →
  decode (TStruct m fs) (JObj l) = decode (TStruct m fs) (JObj ((n, d) :: l)).
Proof.
  intros Hnd Hi Hd Hl Hr. cbn [decode]. rewrite Hr. f_equal. clear Hr.
  induction fs as [|[n' [k' t']] fs IH]; [by inversion Hi|]. rewrite fmap_cons in Hnd. apply NoDup_cons in Hnd as [Hn Hnd]. cbn [fst] in Hn. cbn [dec_fields].
  apply elem_of_cons in Hi as [[= -> <- ->]|Hi].
  - rewrite Hl. cbn [assoc]. rewrite decide_True by done. cbn [field_dec]. rewrite Hd. cbn [fmap option_fmap option_map].
    rewrite (dec_fields_agree decode fs l ((n', d) :: l)); [done|]. intros k Hk. cbn [assoc]. by rewrite decide_False by (intros ->; done).
  - rewrite (IH Hnd Hi). cbn [assoc]. rewrite decide_False; [done|]. intros ->. apply Hn. apply elem_of_list_fmap. by exists (n, (Def d, t)).
Qed.
Lemma rest_known m fs n d l : n ∈ fs.*1 → rest_of m fs ((n, d) :: l) = rest_of m fs l.
Proof. intros H. destruct m; try done. cbn [rest_of]. rewrite filter_cons_False; [done|]. cbn [fst]. unfold known. by rewrite bool_decide_eq_true_2. Qed.
Lemma flag_left_out t m fs n d l : t ∈ protocol_types → inside (TStruct m fs) t → (n, (Def d, TBool)) ∈ fs → assoc n l = None →
  decode (TStruct m fs) (JObj l) = decode (TStruct m fs) (JObj ((n, JBool false) :: l)).
Proof.
  intros Ht Hin Hi Hl. assert (NoDup fs.*1) as Hnd.
  { apply (ty_ok_struct m), (ok_inside _ t); [done|]. pose proof protocol_types_ok as H. rewrite Forall_forall in H. by apply H. }
  assert (flags_ok (TStruct m fs)) as Hf.
  { eapply flags_inside; [exact Hin|]. pose proof protocol_flags as H. rewrite Forall_forall in H. by apply H. }
  destruct (flags_field _ _ _ _ _ Hf Hi) as [_ Hd]. cbn [flag_ok] in Hd. subst d. apply (default_left_out m fs n (JBool false) TBool); [done..|].
  apply rest_known. apply elem_of_list_fmap. by exists (n, (Def (JBool false), TBool)).
Qed.
Lemma context_left_out l : assoc (lit "includeContext") l = None →
  decode t_create_message (JObj l) = decode t_create_message (JObj ((lit "includeContext", JStr (lit "none")) :: l)).
Proof.
  intros Hl. apply (default_left_out MapOrSeq _ _ _ t_include_context); [by apply nodupb_NoDup; vm_compute| |by vm_compute|done|done].
  do 3 apply elem_of_list_further. apply elem_of_list_here.
Qed.
