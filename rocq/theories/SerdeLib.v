(** The code that #[derive(Serialize, Deserialize)] generates (serde 1.0, not in /repo; this file is
    its assumed behaviour), as an interpreter over a description [ty] of the derived type.
    A Rust value of such a type is represented by the JSON it serialises to: its fields in
    declaration order, absent options left out.  [is_of t v] says that [v] is such a value;
    [decode t v] is from_value::<T>(v), returning the decoded value in the same representation.
    Simplifications: an f64 is the JSON number it was written as; a HashMap is its entries in
    arrival order.  *)
From stdpp Require Import sets list strings.
From Verif Require Import ListLib TextLib JsonLib.
Local Open Scope N_scope.

Notation text := (list N) (only parsing).

(** How a field is read: [Req] no attribute; [Opt] an Option with skip_serializing_if; [Def d]
    #[serde(default)], the default being [d]. *)
Inductive fkind := Req | Opt | Def (d : json).
(** Which documents a struct is read from: an object or an array of its fields in order; an object
    only (struct variants of adjacently tagged enums); an object whose unknown fields are collected
    in a flattened HashMap<String, Value>. *)
Inductive smode := MapOrSeq | MapOnly | Flatten.
Inductive ty :=
| TBool | TInt (lo hi : Z) | TNum | TStr | TAny | TStrInt (lo hi : Z)
| TVec (t : ty) | TMap (t : ty)
| TEnum (units : list text) (news : list (text * ty))
| TStruct (m : smode) (fs : list (text * (fkind * ty)))
| TTag (tag : text) (vs : list (text * list (text * (fkind * ty)))).

Fixpoint assoc {A} (k : text) (l : list (text * A)) : option A :=
  match l with [] => None | (k', v) :: l => if decide (k = k') then Some v else assoc k l end.

(** *** Reading *)
Definition field_dec (dec : json → option json) (k : fkind) (o : option json) : option (option json) :=
  match k, o with
  | Opt, None | Opt, Some JNull => Some None
  | Def d, None => Some (Some d)
  | Req, None => None
  | _, Some v => Some <$> dec v
  end.
Definition pos_dec (dec : json → option json) (k : fkind) (o : option json) : option (option json) :=
  match k, o with
  | Opt, None => None
  | k, o => field_dec dec k o
  end.
Definition put (n : text) (o : option json) (l : list (text * json)) : list (text * json) :=
  match o with Some v => (n, v) :: l | None => l end.

Section fields.
  Context (dec : ty → json → option json).
  Fixpoint dec_fields (fs : list (text * (fkind * ty))) (l : list (text * json)) : option (list (text * json)) :=
    match fs with
    | [] => Some []
    | (n, (k, t)) :: fs =>
      match field_dec (dec t) k (assoc n l) with
      | None => None
      | Some o => put n o <$> dec_fields fs l
      end
    end.
  Fixpoint dec_seq (fs : list (text * (fkind * ty))) (l : list json) : option (list (text * json)) :=
    match fs with
    | [] => match l with [] => Some [] | _ => None end
    | (n, (k, t)) :: fs =>
      match pos_dec (dec t) k (head l) with
      | None => None
      | Some o => put n o <$> dec_seq fs (tail l)
      end
    end.
  Fixpoint dec_news (ns : list (text * ty)) (k : text) (w : json) : option json :=
    match ns with
    | [] => None
    | (n, t) :: ns => if decide (k = n) then (λ w, JObj [(k, w)]) <$> dec t w else dec_news ns k w
    end.
  Definition dec_variant (tag : text) (n : text) (o : option (list (text * json))) : option json :=
    (λ l, JObj ((tag, JStr n) :: l)) <$> o.
  Fixpoint dec_vars (tag : text) (vs : list (text * list (text * (fkind * ty)))) (k : text) (w : json) : option json :=
    match vs with
    | [] => None
    | (n, fs) :: vs =>
      if decide (k = n) then dec_variant tag n (match w with
                                                | JObj l => dec_fields fs l
                                                | JArr l => dec_seq fs l
                                                | _ => None end)
      else dec_vars tag vs k w
    end.
End fields.

Definition known (fs : list (text * (fkind * ty))) (k : text) : bool := bool_decide (k ∈ fs.*1).
Definition without (tag : text) (l : list (text * json)) : list (text * json) :=
  filter (λ kv, bool_decide (kv.1 = tag) = false) l.
Definition rest_of (m : smode) (fs : list (text * (fkind * ty))) (l : list (text * json)) : list (text * json) :=
  match m with Flatten => filter (λ kv, known fs kv.1 = false) l | _ => [] end.

Fixpoint decode (t : ty) (v : json) {struct t} : option json :=
  match t with
  | TBool => match v with JBool _ => Some v | _ => None end
  | TInt lo hi => match v with
                  | JInt z => if ((lo <=? z) && (z <=? hi))%Z then Some v else None
                  | _ => None end
  | TNum => match v with JInt _ | JFloat _ => Some v | _ => None end
  | TStr => match v with JStr _ => Some v | _ => None end
  | TAny => Some v
  | TStrInt lo hi => match v with
                     | JStr _ => Some v
                     | JInt z => if ((lo <=? z) && (z <=? hi))%Z then Some v else None
                     | _ => None end
  | TVec t => match v with JArr l => JArr <$> mapM (decode t) l | _ => None end
  | TMap t => match v with
              | JObj l => JObj <$> mapM (λ kv, pair kv.1 <$> decode t kv.2) l
              | _ => None end
  | TEnum us ns => match v with
                   | JStr s => if decide (s ∈ us) then Some (JStr s) else None
                   | JObj [(k, w)] =>
                     if decide (k ∈ us) then match w with JNull => Some (JStr k) | _ => None end
                     else dec_news decode ns k w
                   | _ => None end
  | TStruct m fs =>
    match v with
    | JObj l => (λ out, JObj (out ++ rest_of m fs l)) <$> dec_fields decode fs l
    | JArr l => match m with MapOrSeq => JObj <$> dec_seq decode fs l | _ => None end
    | _ => None
    end
  | TTag tag vs =>
    match v with
    | JObj l => match assoc tag l with
                | Some (JStr k) => dec_vars decode tag vs k (JObj (without tag l))
                | _ => None end
    | JArr (JStr k :: l) => dec_vars decode tag vs k (JArr l)
    | _ => None
    end
  end.

(** *** The values of a type *)
Section layout.
  Context (of : ty → json → Prop).
  Fixpoint layout (fs : list (text * (fkind * ty))) (l : list (text * json)) : Prop :=
    match fs with
    | [] => l = []
    | (n, (Opt, t)) :: fs => layout fs l ∨ ∃ v l', l = (n, v) :: l' ∧ v ≠ JNull ∧ of t v ∧ layout fs l'
    | (n, (_, t)) :: fs => ∃ v l', l = (n, v) :: l' ∧ of t v ∧ layout fs l'
    end.
  Fixpoint news_of (ns : list (text * ty)) (k : text) (w : json) : Prop :=
    match ns with [] => False | (n, t) :: ns => (k = n ∧ of t w) ∨ news_of ns k w end.
  Fixpoint vars_of (vs : list (text * list (text * (fkind * ty)))) (k : text) (l : list (text * json)) : Prop :=
    match vs with [] => False | (n, fs) :: vs => (k = n ∧ layout fs l) ∨ vars_of vs k l end.
End layout.

(** The entries a flattened map may hold without being confused with the declared fields. *)
Definition extra_ok (m : smode) (fs : list (text * (fkind * ty))) (rest : list (text * json)) : Prop :=
  match m with
  | Flatten => NoDup rest.*1 ∧ (∀ k, k ∈ rest.*1 → k ∉ fs.*1)
  | _ => rest = []
  end.

Fixpoint is_of (t : ty) (v : json) {struct t} : Prop :=
  match t with
  | TBool => ∃ b, v = JBool b
  | TInt lo hi => ∃ z, v = JInt z ∧ (lo <= z <= hi)%Z
  | TNum => (∃ z, v = JInt z) ∨ (∃ s, v = JFloat s)
  | TStr => ∃ s, v = JStr s
  | TAny => True
  | TStrInt lo hi => (∃ s, v = JStr s) ∨ (∃ z, v = JInt z ∧ (lo <= z <= hi)%Z)
  | TVec t => ∃ l, v = JArr l ∧ Forall (is_of t) l
  | TMap t => ∃ l, v = JObj l ∧ NoDup l.*1 ∧ Forall (λ kv, is_of t kv.2) l
  | TEnum us ns => (∃ s, v = JStr s ∧ s ∈ us) ∨ (∃ k w, v = JObj [(k, w)] ∧ news_of is_of ns k w)
  | TStruct m fs => ∃ out rest, v = JObj (out ++ rest) ∧ layout is_of fs out ∧ extra_ok m fs rest
  | TTag tag vs => ∃ k l, v = JObj ((tag, JStr k) :: l) ∧ vars_of is_of vs k l
  end.

(** Rust's own rules for a derived type: distinct field and variant names, the tag not a field, and
    defaults that are values of the field's type. *)
Fixpoint nodupb (l : list text) : bool :=
  match l with [] => true | x :: l => bool_decide (x ∉ l) && nodupb l end.
Definition def_ok (dec : ty → json → option json) (k : fkind) (t : ty) : Prop :=
  match k with Def d => dec t d = Some d ∧ keys_ok d | _ => True end.
Fixpoint ty_ok (t : ty) : Prop :=
  match t with
  | TVec t | TMap t => ty_ok t
  | TEnum us ns => nodupb (us ++ ns.*1) = true ∧
      (fix go (ns : list (text * ty)) := match ns with [] => True | (_, t) :: ns => ty_ok t ∧ go ns end) ns
  | TStruct m fs => nodupb fs.*1 = true ∧
      (fix go (fs : list (text * (fkind * ty))) := match fs with [] => True | (_, (k, t)) :: fs => (ty_ok t ∧ def_ok decode k t) ∧ go fs end) fs
  | TTag tag vs => nodupb vs.*1 = true ∧
      (fix gov (vs : list (text * list (text * (fkind * ty)))) := match vs with [] => True | (_, fs) :: vs =>
        (nodupb (tag :: fs.*1) = true ∧
         (fix go (fs : list (text * (fkind * ty))) := match fs with [] => True | (_, (k, t)) :: fs => (ty_ok t ∧ def_ok decode k t) ∧ go fs end) fs) ∧ gov vs end) vs
  | _ => True
  end.

(** *** Induction over descriptions *)
Section ind.
  Context (P : ty → Prop).
  Definition Pfs (fs : list (text * (fkind * ty))) : Prop := Forall (λ f, P f.2.2) fs.
  Context (Hbool : P TBool) (Hint : ∀ lo hi, P (TInt lo hi)) (Hnum : P TNum) (Hstr : P TStr) (Hany : P TAny)
    (Hsi : ∀ lo hi, P (TStrInt lo hi)) (Hvec : ∀ t, P t → P (TVec t)) (Hmap : ∀ t, P t → P (TMap t))
    (Henum : ∀ us ns, Forall (λ n, P n.2) ns → P (TEnum us ns))
    (Hstruct : ∀ m fs, Pfs fs → P (TStruct m fs))
    (Htag : ∀ tag vs, Forall (λ v, Pfs v.2) vs → P (TTag tag vs)).
  Fixpoint ty_ind' (t : ty) : P t :=
    let gof := fix gof (fs : list (text * (fkind * ty))) : Pfs fs :=
      match fs return Pfs fs with
      | [] => Forall_nil_2 _
      | x :: fs => Forall_cons_2 (λ f, P f.2.2) x fs (ty_ind' x.2.2) (gof fs) end in
    match t with
    | TBool => Hbool | TInt lo hi => Hint lo hi | TNum => Hnum | TStr => Hstr | TAny => Hany
    | TStrInt lo hi => Hsi lo hi | TVec t => Hvec t (ty_ind' t) | TMap t => Hmap t (ty_ind' t)
    | TEnum us ns => Henum us ns ((fix go (ns : list (text * ty)) : Forall (λ n, P n.2) ns :=
        match ns return Forall (λ n, P n.2) ns with
        | [] => Forall_nil_2 _
        | x :: ns => Forall_cons_2 (λ n, P n.2) x ns (ty_ind' x.2) (go ns) end) ns)
    | TStruct m fs => Hstruct m fs (gof fs)
    | TTag tag vs => Htag tag vs ((fix go (vs : list (text * list (text * (fkind * ty)))) : Forall (λ v, Pfs v.2) vs :=
        match vs return Forall (λ v, Pfs v.2) vs with
        | [] => Forall_nil_2 _
        | x :: vs => Forall_cons_2 (λ v, Pfs v.2) x vs (gof x.2) (go vs) end) vs)
    end.
End ind.

(** *** Unfolding [ty_ok] *)
Definition fields_ok (fs : list (text * (fkind * ty))) : Prop := Forall (λ f, ty_ok f.2.2 ∧ def_ok decode f.2.1 f.2.2) fs.
Lemma nodupb_NoDup l : nodupb l = true → NoDup l.
Proof.
  induction l as [|x l IH]; [constructor|]. cbn [nodupb].
  rewrite andb_true_iff, bool_decide_eq_true. intros [? ?]. constructor; auto.
Qed.
Lemma ty_ok_struct m fs : ty_ok (TStruct m fs) → NoDup fs.*1 ∧ fields_ok fs.
Proof.
  cbn [ty_ok]. intros [H1 H2]. split; [by apply nodupb_NoDup|]. clear H1. unfold fields_ok.
  induction fs as [|[n [k t]] fs IH]; [constructor|]. destruct H2 as [? ?]. constructor; [done|auto].
Qed.
Lemma ty_ok_enum us ns : ty_ok (TEnum us ns) → NoDup (us ++ ns.*1) ∧ Forall (λ n, ty_ok n.2) ns.
Proof.
  cbn [ty_ok]. intros [H1 H2]. split; [by apply nodupb_NoDup|]. clear H1.
  induction ns as [|[n t] fs IH]; [constructor|]. destruct H2 as [? ?]. constructor; [done|auto].
Qed.
Lemma ty_ok_tag tag vs : ty_ok (TTag tag vs) →
  NoDup vs.*1 ∧ Forall (λ v, NoDup (tag :: v.2.*1) ∧ fields_ok v.2) vs.
Proof.
  cbn [ty_ok]. intros [H1 H2]. split; [by apply nodupb_NoDup|]. clear H1.
  induction vs as [|[n fs] vs IH]; [constructor|]. destruct H2 as [[H3 H4] ?]. constructor; [|auto].
  split; [by apply nodupb_NoDup|]. clear -H4. unfold fields_ok. cbn [snd].
  induction fs as [|[m [k t]] fs IH]; [constructor|]. destruct H4 as [? ?]. constructor; [done|auto].
Qed.

(** *** A value reads back as itself *)
Lemma layout_keys of fs l k : layout of fs l → k ∈ l.*1 → k ∈ fs.*1.
Proof.
  revert l. induction fs as [|[n [kd t]] fs IH]; intros l; cbn [layout].
  - intros -> H. by inversion H.
  - rewrite fmap_cons. cbn [fst]. intros H Hk. rewrite elem_of_cons.
    assert (layout of fs l ∨ ∃ v l', l = (n, v) :: l' ∧ layout of fs l') as [H'|(v & l' & -> & H')].
    { destruct kd; naive_solver. }
    + right. eauto.
    + rewrite fmap_cons, elem_of_cons in Hk. destruct Hk as [->|Hk]; [by left|right; eauto].
Qed.
Lemma layout_nodup of fs l : NoDup fs.*1 → layout of fs l → NoDup l.*1.
Proof.
  revert l. induction fs as [|[n [kd t]] fs IH]; intros l Hnd; cbn [layout]; [intros ->; constructor|].
  rewrite fmap_cons, NoDup_cons in Hnd. destruct Hnd as [Hn Hnd]. intros H.
  assert (layout of fs l ∨ ∃ v l', l = (n, v) :: l' ∧ layout of fs l') as [H'|(v & l' & -> & H')].
  { destruct kd; naive_solver. }
  - eauto.
  - rewrite fmap_cons, NoDup_cons. split; [|eauto]. intros ?. by eapply Hn, layout_keys.
Qed.
Lemma assoc_not_in {A} k (l : list (text * A)) : k ∉ l.*1 → assoc k l = None.
Proof.
  induction l as [|[k' v] l IH]; [done|]. rewrite fmap_cons, not_elem_of_cons. intros [? ?].
  cbn [assoc]. rewrite decide_False by done. auto.
Qed.
Lemma assoc_app {A} k (l1 l2 : list (text * A)) :
  assoc k (l1 ++ l2) = match assoc k l1 with Some v => Some v | None => assoc k l2 end.
Proof. induction l1 as [|[k' v] l IH]; [done|]. cbn. case_decide; auto. Qed.
Lemma assoc_In {A} k (l : list (text * A)) v : assoc k l = Some v → (k, v) ∈ l.
Proof.
  induction l as [|[k' v'] l IH]; cbn; [done|]. case_decide; [intros; simplify_eq; left|right; auto].
Qed.

Definition rt (t : ty) : Prop := ty_ok t → ∀ v, is_of t v → decode t v = Some v.
Lemma dec_fields_layout fs : Pfs rt fs → fields_ok fs → NoDup fs.*1 →
  ∀ l L, layout is_of fs l → (∀ n, n ∈ fs.*1 → assoc n L = assoc n l) → dec_fields decode fs L = Some l.
Proof.
  unfold Pfs, fields_ok.
  induction fs as [|[n [k t]] fs IH]; cbn [layout dec_fields].
  { by intros _ _ _ l L -> _. }
  rewrite !Forall_cons, fmap_cons, NoDup_cons. cbn [fst snd].
  intros [Ht Hfs] [[Hok Hd] Hoks] [Hn Hnd] l L Hl HL.
  assert (Hin : assoc n L = assoc n l) by (apply HL; left).
  rewrite Hin.
  assert (Hpresent : ∀ v l', l = (n, v) :: l' → is_of t v → layout is_of fs l' → v ≠ JNull ∨ k ≠ Opt →
    match field_dec (decode t) k (assoc n l) with None => None | Some o => put n o <$> dec_fields decode fs L end = Some l).
  { intros v l' -> Hv Hl' Hk. cbn [assoc]. rewrite decide_True by done.
    rewrite (IH Hfs Hoks Hnd l').
    - assert (field_dec (decode t) k (Some v) = Some (Some v)) as ->; [|done].
      unfold field_dec. rewrite (Ht Hok _ Hv). destruct k, v; naive_solver.
    - done.
    - intros m Hm. rewrite HL by (by right). cbn [assoc]. rewrite decide_False; [done|]. intros ->. done. }
  destruct k.
  - destruct Hl as (v & l' & ? & ? & ?). eapply Hpresent; eauto.
  - destruct Hl as [Hl|(v & l' & ? & ? & ? & ?)]; [|eapply Hpresent; eauto].
    rewrite assoc_not_in by (intros H; eapply Hn, layout_keys; eauto). cbn [field_dec].
    rewrite (IH Hfs Hoks Hnd l); [done..|]. intros m Hm. apply HL. by right.
  - destruct Hl as (v & l' & ? & ? & ?). eapply Hpresent; eauto.
Qed.

Lemma mapM_id_Forall {A} (f : A → option A) l : Forall (λ x, f x = Some x) l → mapM f l = Some l.
Proof. induction 1 as [|x l Hx _ IH]; [done|]. cbn. by rewrite Hx, IH. Qed.

Lemma decode_is_of t : rt t.
Proof.
  induction t as [|lo hi| | | |lo hi|t IH|t IH|us ns IH|m fs IH|tag vs IH] using ty_ind'; unfold rt; intros Hok v Hv; cbn [is_of] in Hv.
  - destruct Hv as [b ->]. done.
  - destruct Hv as (z & -> & ?). cbn [decode].
    assert (((lo <=? z) && (z <=? hi))%Z = true) as -> by lia. done.
  - by destruct Hv as [[z ->]|[s ->]].
  - by destruct Hv as [s ->].
  - done.
  - destruct Hv as [[s ->]|(z & -> & ?)]; [done|]. cbn [decode].
    assert (((lo <=? z) && (z <=? hi))%Z = true) as -> by lia. done.
  - destruct Hv as (l & -> & Hl). cbn [decode]. rewrite mapM_id_Forall; [done|].
    eapply Forall_impl; [exact Hl|]. intros x. by apply IH.
  - destruct Hv as (l & -> & _ & Hl). cbn [decode]. rewrite mapM_id_Forall; [done|].
    eapply Forall_impl; [exact Hl|]. intros [k x] Hx. cbn [fst snd] in *. by rewrite (IH Hok _ Hx).
  - apply ty_ok_enum in Hok as [Hnd Hok]. cbn [decode]. destruct Hv as [(s & -> & Hs)|(k & w & -> & Hk)].
    + by rewrite decide_True.
    + assert (k ∈ ns.*1) as Hkn.
      { clear -Hk. induction ns as [|[n t] ns IHn]; [done|]. rewrite fmap_cons, elem_of_cons.
        destruct Hk as [[-> _]|Hk]; [by left|right; auto]. }
      apply NoDup_app in Hnd as (_ & Hdis & Hnd).
      rewrite decide_False by (intros ?; by eapply Hdis).
      clear Hdis Hkn. revert Hk. induction ns as [|[n t] ns IHn]; [done|].
      rewrite !Forall_cons in *. destruct IH as [Ht IH], Hok as [Hokt Hok].
      rewrite fmap_cons, NoDup_cons in Hnd. destruct Hnd as [Hn Hnd].
      cbn [news_of dec_news]. intros [[-> Hw]|Hk].
      * rewrite decide_True by done. cbn [snd] in *. by rewrite (Ht Hokt _ Hw).
      * rewrite decide_False; [by apply IHn|]. intros ->. apply Hn. clear -Hk.
        cbn [fst]. induction ns as [|[m t'] ns IHn]; [done|]. rewrite fmap_cons, elem_of_cons.
        destruct Hk as [[-> _]|Hk]; [by left|right; auto].
  - apply ty_ok_struct in Hok as [Hnd Hok]. destruct Hv as (out & rest & -> & Hl & Hr). cbn [decode].
    assert (∀ k, k ∈ rest.*1 → k ∉ fs.*1) as Hdis.
    { destruct m; cbn in Hr; [subst; intros ? H; inversion H..|naive_solver]. }
    rewrite (dec_fields_layout fs IH Hok Hnd out).
    + cbn. do 3 f_equal. destruct m; cbn in *; [done..|].
      rewrite filter_app. assert (filter (λ kv : list N * json, known fs kv.1 = false) out = []) as ->; cycle 1.
      * clear -Hdis. cbn. induction rest as [|[k v] rest IHr]; [done|].
        rewrite filter_cons_True.
        -- f_equal. apply IHr. intros k' Hk'. apply Hdis. by right.
        -- cbn. apply bool_decide_eq_false. apply Hdis. left.
      * clear -Hl. assert (∀ k, k ∈ out.*1 → k ∈ fs.*1) as Hin by (intros; by eapply layout_keys).
        clear Hl. induction out as [|[k v] out IHo]; [done|]. rewrite filter_cons_False.
        -- apply IHo. intros k' Hk'. apply Hin. by right.
        -- cbn. unfold known. rewrite bool_decide_eq_true_2; [done|]. apply Hin. left.
    + done.
    + intros n Hn. rewrite assoc_app. destruct (assoc n out) eqn:E; [done|].
      apply assoc_not_in. intros H. by eapply Hdis.
  - apply ty_ok_tag in Hok as [Hnd Hok]. destruct Hv as (k & l & -> & Hv). cbn [decode assoc].
    rewrite decide_True by done. unfold without. rewrite filter_cons_False; cycle 1.
    { cbn. by rewrite bool_decide_eq_true_2. }
    assert (Hin : ∀ vs k l, vars_of is_of vs k l → k ∈ vs.*1).
    { clear. intros vs k l. induction vs as [|[n fs] vs IH]; [done|]. rewrite fmap_cons, elem_of_cons.
      intros [[-> _]|Hk]; [by left|right; auto]. }
    induction vs as [|[n fs] vs IHv]; [done|].
    rewrite !Forall_cons in *. destruct IH as [Ht IH], Hok as [[Htag Hokt] Hok].
    rewrite fmap_cons, NoDup_cons in Hnd. destruct Hnd as [Hn Hnd]. cbn [fst snd] in *.
    rewrite NoDup_cons in Htag. destruct Htag as [Htag Hnds].
    cbn [vars_of dec_vars] in *. destruct Hv as [[-> Hl]|Hv].
    + rewrite decide_True by done. assert (filter (λ kv : list N * json, bool_decide (kv.1 = tag) = false) l = l) as ->; cycle 1.
      * by rewrite (dec_fields_layout fs Ht Hokt Hnds l l).
      * assert (∀ k, k ∈ l.*1 → k ≠ tag) as Hk.
        { intros k Hk ->. eapply Htag, layout_keys; eauto. }
        clear -Hk. induction l as [|[k v] l IHl]; [done|]. rewrite filter_cons_True.
        -- f_equal. apply IHl. intros k' Hk'. apply Hk. by right.
        -- cbn. apply bool_decide_eq_false. apply Hk. left.
    + rewrite decide_False; [by apply IHv|]. intros ->. by eapply Hn, Hin.
Qed.

(** *** What is read is a value of the type *)
Definition sound (t : ty) : Prop := ty_ok t → ∀ v w, keys_ok v → decode t v = Some w → is_of t w.
Lemma put_layout n k t fs o l : layout is_of fs l →
  (match k, o with Opt, None => True | _, Some v => is_of t v ∧ (k = Opt → v ≠ JNull) | _, _ => False end) →
  layout is_of ((n, (k, t)) :: fs) (put n o l).
Proof.
  intros Hl Ho. cbn [layout]. destruct k, o as [v|]; try done; cbn [put].
  - naive_solver.
  - right. exists v, l. naive_solver.
  - by left.
  - naive_solver.
Qed.
(** The canonical form of a value that is not null is never null. *)
Lemma decode_null t v : decode t v = Some JNull → v = JNull.
Proof.
  destruct t as [|lo hi| | | |lo hi|t|t|us news|m fs|tag vs]; cbn [decode].
  - destruct v; naive_solver.
  - destruct v; try done. case_match; intros; simplify_eq.
  - destruct v; naive_solver.
  - destruct v; naive_solver.
  - naive_solver.
  - destruct v; try done. case_match; intros; simplify_eq.
  - destruct v; try done. intros (? & ? & ?)%fmap_Some. done.
  - destruct v; try done. intros (? & ? & ?)%fmap_Some. done.
  - destruct v as [| | | |s| |l]; try done; [case_decide; intros; simplify_eq|].
    destruct l as [|[k w] [|]]; try done. case_decide; [destruct w; intros; simplify_eq|].
    induction news as [|[n t] ns IH]; [done|]. cbn [dec_news]. case_decide; [|done].
    intros (? & ? & ?)%fmap_Some. done.
  - destruct v as [| | | |s|l|l]; try done.
    + destruct m; try done. intros (? & ? & ?)%fmap_Some. done.
    + intros (? & ? & ?)%fmap_Some. done.
  - assert (Hv : ∀ k w, dec_vars decode tag vs k w ≠ Some JNull).
    { intros k w. induction vs as [|[n fs] vs IH]; [done|]. cbn [dec_vars]. case_decide; [|done].
      unfold dec_variant. intros (? & ? & ?)%fmap_Some. done. }
    destruct v as [| | | |s|l|l]; try done.
    + destruct l as [|[]]; try done. intros H. by destruct (Hv _ _ H).
    + destruct (assoc tag l) as [[]|]; try done. intros H. by destruct (Hv _ _ H).
Qed.
Lemma field_dec_ok t k x o : sound t → ty_ok t → def_ok decode k t → (∀ v, x = Some v → keys_ok v) →
  field_dec (decode t) k x = Some o →
  match k, o with Opt, None => True | _, Some v => is_of t v ∧ (k = Opt → v ≠ JNull) | _, _ => False end.
Proof.
  intros Hs Hok Hd Hx. unfold field_dec. destruct k.
  - destruct x as [v|]; [|done]. intros (w & Hw & ->)%fmap_Some. split; [|done]. eapply Hs; eauto.
  - destruct x as [v|]; [|intros; by simplify_eq]. assert (v = JNull ∨ v ≠ JNull) as [->|Hn] by (destruct v; naive_solver); [intros; by simplify_eq|].
    intros H. assert (Some <$> decode t v = Some o) as (w & Hw & ->)%fmap_Some by (by destruct v). split.
    + eapply Hs; eauto.
    + intros _ ->. by apply Hn, (decode_null t).
  - destruct Hd as [Hd Hkd]. destruct x as [v|]; [|intros; simplify_eq].
    + intros (w & Hw & ->)%fmap_Some. split; [|done]. eapply (Hs Hok v); eauto.
    + split; [|done]. eapply (Hs Hok d); eauto.
Qed.
Lemma dec_fields_sound fs : Pfs sound fs → fields_ok fs → ∀ L l,
  Forall (λ kv, keys_ok kv.2) L → dec_fields decode fs L = Some l → layout is_of fs l.
Proof.
  unfold Pfs, fields_ok. intros Hp Hok L l HL. revert l.
  induction fs as [|[n [k t]] fs IH]; intros l; cbn [dec_fields].
  - intros; by simplify_eq.
  - rewrite Forall_cons in Hp. rewrite Forall_cons in Hok. cbn [fst snd] in *.
    destruct Hp as [Hs Hp], Hok as [[Ht Hd] Hok].
    destruct (field_dec _ k _) as [o|] eqn:E; [|done]. intros (l' & Hl' & ->)%fmap_Some.
    apply put_layout; [by apply IH|]. eapply field_dec_ok; eauto.
    intros v Hv%assoc_In. rewrite Forall_forall in HL. by apply (HL _ Hv).
Qed.
Lemma dec_seq_sound fs : Pfs sound fs → fields_ok fs → ∀ L l,
  Forall keys_ok L → dec_seq decode fs L = Some l → layout is_of fs l.
Proof.
  unfold Pfs, fields_ok. intros Hp Hok.
  induction fs as [|[n [k t]] fs IH]; intros L l HL; cbn [dec_seq].
  - destruct L; [|done]. intros; by simplify_eq.
  - rewrite Forall_cons in Hp. rewrite Forall_cons in Hok. cbn [fst snd] in *.
    destruct Hp as [Hs Hp], Hok as [[Ht Hd] Hok].
    destruct (pos_dec _ k _) as [o|] eqn:E; [|done]. intros (l' & Hl' & ->)%fmap_Some.
    apply put_layout.
    + eapply IH; [done..| |exact Hl']. destruct L; [done|]. by apply Forall_cons in HL as [_ ?].
    + assert (field_dec (decode t) k (head L) = Some o) as E'.
      { unfold pos_dec in E. destruct k, (head L); done. }
      eapply field_dec_ok; [done..| |exact E']. intros v Hv. destruct L; [done|]. simplify_eq/=.
      by apply Forall_cons in HL as [? _].
Qed.

Lemma decode_sound t : sound t.
Proof.
  induction t as [|lo hi| | | |lo hi|t IH|t IH|us ns IH|m fs IH|tag vs IH] using ty_ind';
    unfold sound; intros Hok v w Hk; cbn [decode is_of].
  - destruct v; naive_solver.
  - destruct v; try done. destruct (_ && _)%Z eqn:E; [|done]. intros; simplify_eq. eexists. split; [done|]. lia.
  - destruct v; naive_solver.
  - destruct v; naive_solver.
  - done.
  - destruct v; try done; [|naive_solver]. destruct (_ && _)%Z eqn:E; [|done]. intros; simplify_eq.
    right. eexists. split; [done|]. lia.
  - destruct v as [| | | | |l|]; try done. apply keys_ok_arr in Hk. intros (l' & Hl' & ->)%fmap_Some.
    exists l'. split; [done|]. apply mapM_Some in Hl'. induction Hl' as [|x y l l' Hxy _ IHl]; [constructor|].
    apply Forall_cons in Hk as [? ?]. constructor; [by eapply IH|auto].
  - destruct v as [| | | | | |l]; try done. apply keys_ok_obj in Hk as [Hnd Hk]. intros (l' & Hl' & ->)%fmap_Some.
    exists l'. split; [done|]. apply mapM_Some in Hl'.
    assert (l'.*1 = l.*1) as ->.
    { clear -Hl'. induction Hl' as [|x y l l' Hxy _ IHl]; [done|]. rewrite !fmap_cons, IHl.
      apply fmap_Some in Hxy as (? & ? & ->). done. }
    split; [done|]. clear Hnd. induction Hl' as [|x y l l' Hxy _ IHl]; [constructor|].
    apply Forall_cons in Hk as [? ?]. apply fmap_Some in Hxy as (? & ? & ->).
    constructor; [by eapply IH|auto].
  - apply ty_ok_enum in Hok as [Hnd Hok]. destruct v as [| | | |s| |l]; try done.
    + case_decide; [|done]. intros; simplify_eq. left. eauto.
    + destruct l as [|[k x] [|]]; try done. case_decide.
      * destruct x; try done. intros; simplify_eq. left. eauto.
      * apply keys_ok_obj in Hk as [_ Hk]. apply Forall_cons in Hk as [Hk _]. cbn [snd] in Hk.
        intros Hw. right. cut (∃ y, w = JObj [(k, y)] ∧ news_of is_of ns k y); [naive_solver|].
        clear Hnd. induction ns as [|[n t] ns IHn]; [done|]. rewrite !Forall_cons in *. cbn [snd] in *.
        destruct IH as [Ht IH], Hok as [Hokt Hok]. cbn [dec_news] in Hw. case_decide.
        -- apply fmap_Some in Hw as (y & Hy & ->). exists y. split; [done|]. left. split; [done|]. by eapply Ht.
        -- destruct (IHn IH Hok Hw) as (y & ? & ?). exists y. split; [done|]. by right.
  - apply ty_ok_struct in Hok as [Hnd Hok]. destruct v as [| | | | |l|l]; try done.
    + destruct m; try done. apply keys_ok_arr in Hk. intros (l' & Hl' & ->)%fmap_Some.
      exists l', []. rewrite app_nil_r. split; [done|]. split; [|done]. by eapply dec_seq_sound.
    + apply keys_ok_obj in Hk as [Hndl Hk]. intros (l' & Hl' & ->)%fmap_Some.
      exists l', (rest_of m fs l). split; [done|]. split; [by eapply dec_fields_sound|].
      destruct m; cbn; [done..|]. split.
      * clear -Hndl. induction l as [|[k v] l IH]; [constructor|]. rewrite fmap_cons, NoDup_cons in Hndl.
        destruct Hndl as [Hn Hnd]. rewrite filter_cons. case_decide; [|auto].
        rewrite fmap_cons, NoDup_cons. cbn [fst] in *. split; [|auto]. rewrite elem_of_list_fmap. intros ([k' v'] & -> & Hin).
        apply elem_of_list_filter in Hin as [_ Hin]. apply Hn. by apply (elem_of_list_fmap_1 fst) in Hin.
      * intros k. rewrite elem_of_list_fmap. intros ([k' v'] & -> & Hin). apply elem_of_list_filter in Hin as [Hin _].
        unfold known in Hin. by apply bool_decide_eq_false in Hin.
  - apply ty_ok_tag in Hok as [Hnd Hok].
    assert (Hv : ∀ k x, (match x with JObj l => Forall (λ kv, keys_ok kv.2) l | JArr l => Forall keys_ok l | _ => True end) →
      dec_vars decode tag vs k x = Some w → ∃ l, w = JObj ((tag, JStr k) :: l) ∧ vars_of is_of vs k l).
    { intros k x Hx Hw. clear Hnd. induction vs as [|[n fs] vs IHv]; [done|]. rewrite !Forall_cons in *.
      cbn [snd] in *. destruct IH as [Ht IH], Hok as [[_ Hokt] Hok]. cbn [dec_vars] in Hw. case_decide.
      - subst n. unfold dec_variant in Hw. apply fmap_Some in Hw as (l & Hl & ->). exists l. split; [done|].
        left. split; [done|]. destruct x; try done; [by eapply dec_seq_sound|by eapply dec_fields_sound].
      - destruct (IHv IH Hok Hw) as (l & ? & ?). exists l. split; [done|]. by right. }
    destruct v as [| | | | |l|l]; try done.
    + destruct l as [|[] l]; try done. apply keys_ok_arr in Hk. apply Forall_cons in Hk as [_ Hk].
      intros Hw. destruct (Hv _ (JArr l) Hk Hw) as (? & ? & ?). eauto.
    + apply keys_ok_obj in Hk as [_ Hk]. destruct (assoc tag l) as [[]|]; try done.
      intros Hw. eapply Hv in Hw as (? & ? & ?); [eauto|]. cbn. unfold without.
      apply Forall_forall. intros kv [_ Hin]%elem_of_list_filter. by eapply Forall_forall in Hk.
Qed.
