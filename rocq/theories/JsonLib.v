(** JSON documents as serde_json 1.0 reads and writes them (features [raw_value] and
    [preserve_order], Cargo.toml:19): text is a list of code points.  serde_json itself is not in
    /repo; this file is the assumed behaviour of the library the code relies on.
    Simplifications: floating point numbers are kept as their text (no conversion to f64, no range
    error); integers outside i64/u64 are such texts too.  *)
From stdpp Require Import sets list strings.
From Verif Require Import ListLib TextLib Utf8Lib.
Local Open Scope N_scope.

Inductive json :=
| JNull | JBool (b : bool) | JInt (z : Z) | JFloat (t : list N) | JStr (s : list N)
| JArr (l : list json) | JObj (l : list (list N * json)).

(** *** Writing *)
Definition show_Z (z : Z) : list N :=
  match z with Zneg p => 45 :: show_N (Npos p) | _ => show_N (Z.to_N z) end.
Definition hex_lower (n : N) : N := if n <? 10 then 48 + n else 87 + n.
Definition esc_char (c : N) : list N :=
  if c =? 34 then [92; 34] else if c =? 92 then [92; 92]
  else if c =? 8 then [92; 98] else if c =? 9 then [92; 116] else if c =? 10 then [92; 110]
  else if c =? 12 then [92; 102] else if c =? 13 then [92; 114]
  else if c <? 32 then [92; 117; 48; 48; hex_lower (c / 16); hex_lower (c mod 16)]
  else [c].
Definition show_str (s : list N) : list N := 34 :: concat (esc_char <$> s) ++ [34].
Fixpoint show (v : json) : list N :=
  match v with
  | JNull => lit "null" | JBool true => lit "true" | JBool false => lit "false"
  | JInt z => show_Z z | JFloat t => t | JStr s => show_str s
  | JArr l => 91 :: join_with [44] (show <$> l) ++ [93]
  | JObj l => 123 :: join_with [44] ((λ kv, show_str kv.1 ++ 58 :: show kv.2) <$> l) ++ [125]
  end.

(** *** Reading *)
Definition json_ws (c : N) : bool := (c =? 32) || (c =? 10) || (c =? 9) || (c =? 13).
Definition skip_ws (t : list N) : list N := drop_while json_ws t.
Definition hex_val (c : N) : option N :=
  if (48 <=? c) && (c <=? 57) then Some (c - 48)
  else if (65 <=? c) && (c <=? 70) then Some (c - 55)
  else if (97 <=? c) && (c <=? 102) then Some (c - 87)
  else None.
Definition hex4 (a b c d : N) : option N :=
  match hex_val a, hex_val b, hex_val c, hex_val d with
  | Some a, Some b, Some c, Some d => Some (4096 * a + 256 * b + 16 * c + d)
  | _, _, _, _ => None
  end.
Definition unescape (e : N) : option N :=
  if e =? 34 then Some 34 else if e =? 92 then Some 92 else if e =? 47 then Some 47
  else if e =? 98 then Some 8 else if e =? 102 then Some 12 else if e =? 110 then Some 10
  else if e =? 114 then Some 13 else if e =? 116 then Some 9 else None.
Definition cons_fst (x : N) (o : option (list N * list N)) : option (list N * list N) :=
  match o with Some (s, r) => Some (x :: s, r) | None => None end.
(** The rest of a string after its opening quote. *)
Fixpoint parse_str (t : list N) : option (list N * list N) :=
  match t with
  | [] => None
  | c :: t1 =>
      if c =? 34 then Some ([], t1)
      else if c =? 92 then
        match t1 with
        | [] => None
        | e :: t2 =>
            if e =? 117 then
              match t2 with
              | h1 :: h2 :: h3 :: h4 :: t3 =>
                  match hex4 h1 h2 h3 h4 with
                  | None => None
                  | Some n =>
                      if (56320 <=? n) && (n <=? 57343) then None
                      else if (55296 <=? n) && (n <=? 56319) then
                        match t3 with
                        | b :: u :: k1 :: k2 :: k3 :: k4 :: t4 =>
                            if (b =? 92) && (u =? 117) then
                              match hex4 k1 k2 k3 k4 with
                              | Some m => if (56320 <=? m) && (m <=? 57343)
                                          then cons_fst (65536 + 1024 * (n - 55296) + (m - 56320)) (parse_str t4)
                                          else None
                              | None => None
                              end
                            else None
                        | _ => None
                        end
                      else cons_fst n (parse_str t3)
                  end
              | _ => None
              end
            else match unescape e with Some x => cons_fst x (parse_str t2) | None => None end
        end
      else if c <? 32 then None
      else cons_fst c (parse_str t1)
  end.

Definition is_dig (c : N) : bool := (48 <=? c) && (c <=? 57).
Fixpoint take_digits (t : list N) : list N * list N :=
  match t with
  | c :: t' => if is_dig c then let '(ds, r) := take_digits t' in (c :: ds, r) else ([], t)
  | [] => ([], [])
  end.
Definition digits_val (ds : list N) : N := fold_left (λ a d, a * 10 + (d - 48)) ds 0.
(** Integer part: "0" or digits without leading zero. *)
Definition scan_int (t : list N) : option (list N * list N) :=
  match t with
  | c :: t' =>
      if c =? 48 then
        match t' with
        | d :: _ => if is_dig d then None else Some ([c], t')
        | [] => Some ([c], [])
        end
      else match take_digits t with ([], _) => None | (ds, r) => Some (ds, r) end
  | [] => None
  end.
(** Optional fraction and exponent. *)
Definition scan_frac (t : list N) : option (list N * list N) :=
  match t with
  | c :: t' => if c =? 46 then match take_digits t' with ([], _) => None | (ds, r) => Some (c :: ds, r) end
               else Some ([], t)
  | [] => Some ([], [])
  end.
Definition scan_exp (t : list N) : option (list N * list N) :=
  match t with
  | c :: t' =>
      if (c =? 101) || (c =? 69) then
        let '(sg, t2) := match t' with
                         | s :: t2 => if (s =? 43) || (s =? 45) then ([s], t2) else ([], t')
                         | [] => ([], [])
                         end in
        match take_digits t2 with ([], _) => None | (ds, r) => Some (c :: sg ++ ds, r) end
      else Some ([], t)
  | [] => Some ([], [])
  end.
Definition i64_min_abs : N := 9223372036854775808.
Definition parse_num (t : list N) : option (json * list N) :=
  let '(sg, t1) := match t with c :: t' => if c =? 45 then ([c], t') else ([], t) | [] => ([], []) end in
  match scan_int t1 with
  | None => None
  | Some (ds, t2) =>
      match scan_frac t2 with
      | None => None
      | Some (fr, t3) =>
          match scan_exp t3 with
          | None => None
          | Some (ex, t4) =>
              let lexeme := sg ++ ds ++ fr ++ ex in
              let n := digits_val ds in
              Some (match fr ++ ex, sg with
                    | [], [] => if n <=? u64_max then JInt (Z.of_N n) else JFloat lexeme
                    | [], _ => if (0 <? n) && (n <=? i64_min_abs) then JInt (- Z.of_N n) else JFloat lexeme
                    | _, _ => JFloat lexeme
                    end, t4)
          end
      end
  end.

Fixpoint strip (p t : list N) : option (list N) :=
  match p, t with
  | [], _ => Some t
  | x :: p', y :: t' => if x =? y then strip p' t' else None
  | _, _ => None
  end.

(** [d] is serde_json's remaining recursion depth. *)
Fixpoint pv (f : nat) (d : nat) (t : list N) {struct f} : option (json * list N) :=
  match f with
  | O => None
  | S f =>
    match skip_ws t with
    | [] => None
    | c :: r =>
        if c =? 110 then match strip (lit "ull") r with Some r => Some (JNull, r) | None => None end
        else if c =? 116 then match strip (lit "rue") r with Some r => Some (JBool true, r) | None => None end
        else if c =? 102 then match strip (lit "alse") r with Some r => Some (JBool false, r) | None => None end
        else if c =? 34 then match parse_str r with Some (s, r) => Some (JStr s, r) | None => None end
        else if c =? 91 then
          match d with
          | S (S d') =>
              match skip_ws r with
              | c1 :: r1 =>
                  if c1 =? 93 then Some (JArr [], r1)
                  else match pitems f (S d') r with Some (l, r) => Some (JArr l, r) | None => None end
              | [] => None
              end
          | _ => None
          end
        else if c =? 123 then
          match d with
          | S (S d') =>
              match skip_ws r with
              | c1 :: r1 =>
                  if c1 =? 125 then Some (JObj [], r1)
                  else match pfields f (S d') r with Some (l, r) => Some (JObj l, r) | None => None end
              | [] => None
              end
          | _ => None
          end
        else parse_num (c :: r)
    end
  end
with pitems (f : nat) (d : nat) (t : list N) {struct f} : option (list json * list N) :=
  match f with
  | O => None
  | S f =>
      match pv f d t with
      | None => None
      | Some (v, r) =>
          match skip_ws r with
          | c :: r1 =>
              if c =? 44 then match pitems f d r1 with Some (vs, r2) => Some (v :: vs, r2) | None => None end
              else if c =? 93 then Some ([v], r1)
              else None
          | [] => None
          end
      end
  end
with pfields (f : nat) (d : nat) (t : list N) {struct f} : option (list (list N * json) * list N) :=
  match f with
  | O => None
  | S f =>
      match skip_ws t with
      | q :: r =>
          if q =? 34 then
            match parse_str r with
            | None => None
            | Some (k, r) =>
                match skip_ws r with
                | col :: r =>
                    if col =? 58 then
                      match pv f d r with
                      | None => None
                      | Some (v, r) =>
                          match skip_ws r with
                          | c :: r1 =>
                              if c =? 44 then
                                match pfields f d r1 with Some (vs, r2) => Some ((k, v) :: vs, r2) | None => None end
                              else if c =? 125 then Some ([(k, v)], r1)
                              else None
                          | [] => None
                          end
                      end
                    else None
                | [] => None
                end
            end
          else None
      | [] => None
      end
  end.
(** [serde_json::from_str] to a document: pairs in document order, duplicates kept. *)
Definition parse (t : list N) : option json :=
  match pv (S (length t)) 128 t with
  | Some (v, r) => match skip_ws r with [] => Some v | _ => None end
  | None => None
  end.

(** Into a [serde_json::Map] (IndexMap): a later duplicate replaces the earlier value in place. *)
Fixpoint obj_insert {A} (k : list N) (v : A) (l : list (list N * A)) : list (list N * A) :=
  match l with
  | [] => [(k, v)]
  | (k', v') :: l => if decide (k = k') then (k', v) :: l else (k', v') :: obj_insert k v l
  end.
Definition obj_of {A} (l : list (list N * A)) : list (list N * A) :=
  fold_left (λ m kv, obj_insert kv.1 kv.2 m) l [].
Fixpoint norm (v : json) : json :=
  match v with
  | JArr l => JArr (norm <$> l)
  | JObj l => JObj (obj_of ((λ kv, (kv.1, norm kv.2)) <$> l))
  | v => v
  end.
Definition parse_value (t : list N) : option json := norm <$> parse t.

(** *** Well-formed values *)
Fixpoint json_ind' (P : json → Prop)
  (Hnull : P JNull) (Hb : ∀ b, P (JBool b)) (Hi : ∀ z, P (JInt z)) (Hf : ∀ t, P (JFloat t)) (Hs : ∀ s, P (JStr s))
  (Ha : ∀ l, Forall P l → P (JArr l)) (Ho : ∀ l, Forall (λ kv, P kv.2) l → P (JObj l)) (v : json) : P v :=
  let rec := json_ind' P Hnull Hb Hi Hf Hs Ha Ho in
  match v with
  | JNull => Hnull | JBool b => Hb b | JInt z => Hi z | JFloat t => Hf t | JStr s => Hs s
  | JArr l => Ha l ((fix go l := match l return Forall P l with
                                 | [] => Forall_nil_2 P
                                 | x :: l => Forall_cons_2 P x l (rec x) (go l) end) l)
  | JObj l => Ho l ((fix go l := match l return Forall (λ kv, P kv.2) l with
                                 | [] => Forall_nil_2 _
                                 | x :: l => Forall_cons_2 (λ kv, P kv.2) x l (rec x.2) (go l) end) l)
  end.

(** A floating point text: a JSON number with a fraction or an exponent. *)
Definition float_text (t : list N) : Prop := parse_num t = Some (JFloat t, []) .
Fixpoint wf (v : json) : Prop :=
  match v with
  | JInt z => (- Z.of_N i64_min_abs <= z <= Z.of_N u64_max)%Z
  | JFloat t => float_text t
  | JArr l => (fix go l := match l with [] => True | x :: l => wf x ∧ go l end) l
  | JObj l => (fix go (l : list (list N * json)) := match l with [] => True | x :: l => wf x.2 ∧ go l end) l
  | _ => True
  end.
Fixpoint depth (v : json) : nat :=
  match v with
  | JArr l => S (foldr (λ x n, Nat.max (depth x) n) 0%nat l)
  | JObj l => S (foldr (λ x n, Nat.max (depth x.2) n) 0%nat l)
  | _ => 0%nat
  end.
Fixpoint nodes (v : json) : nat :=
  match v with
  | JArr l => S (foldr (λ x n, S (nodes x) + n)%nat 0%nat l)
  | JObj l => S (foldr (λ x n, S (nodes x.2) + n)%nat 0%nat l)
  | _ => 1%nat
  end.
(** What serde_json can hold in memory and read back: numbers in range, no duplicate keys, nesting
    below the recursion limit. *)
Fixpoint keys_ok (v : json) : Prop :=
  match v with
  | JArr l => (fix go l := match l with [] => True | x :: l => keys_ok x ∧ go l end) l
  | JObj l => NoDup l.*1 ∧ (fix go (l : list (list N * json)) := match l with [] => True | x :: l => keys_ok x.2 ∧ go l end) l
  | _ => True
  end.
Lemma wf_arr l : wf (JArr l) ↔ Forall wf l.
Proof. cbn [wf]. induction l as [|x l IH]; [done|]. by rewrite Forall_cons, IH. Qed.
Lemma wf_obj l : wf (JObj l) ↔ Forall (λ kv, wf kv.2) l.
Proof. cbn [wf]. induction l as [|x l IH]; [done|]. by rewrite Forall_cons, IH. Qed.
Lemma keys_ok_arr l : keys_ok (JArr l) ↔ Forall keys_ok l.
Proof. cbn [keys_ok]. induction l as [|x l IH]; [done|]. by rewrite Forall_cons, IH. Qed.
Lemma keys_ok_obj l : keys_ok (JObj l) ↔ NoDup l.*1 ∧ Forall (λ kv, keys_ok kv.2) l.
Proof.
  cbn [keys_ok]. apply and_iff_compat_l. induction l as [|x l IH]; [done|]. by rewrite Forall_cons, IH.
Qed.

(** *** Strings *)
Lemma parse_str_char c t : parse_str (esc_char c ++ t) = cons_fst c (parse_str t).
Proof.
  unfold esc_char.
  destruct (c =? 34) eqn:E1; [apply N.eqb_eq in E1 as ->; done|].
  destruct (c =? 92) eqn:E2; [apply N.eqb_eq in E2 as ->; done|].
  destruct (c =? 8) eqn:E3; [apply N.eqb_eq in E3 as ->; done|].
  destruct (c =? 9) eqn:E4; [apply N.eqb_eq in E4 as ->; done|].
  destruct (c =? 10) eqn:E5; [apply N.eqb_eq in E5 as ->; done|].
  destruct (c =? 12) eqn:E6; [apply N.eqb_eq in E6 as ->; done|].
  destruct (c =? 13) eqn:E7; [apply N.eqb_eq in E7 as ->; done|].
  destruct (c <? 32) eqn:E8.
  - cbn [app parse_str]. change (92 =? 34) with false. change (92 =? 92) with true. change (117 =? 117) with true. cbn iota.
    assert (Hh : hex4 48 48 (hex_lower (c / 16)) (hex_lower (c mod 16)) = Some c).
    { apply N.ltb_lt in E8.
      assert (Hall : forallb (λ c, bool_decide (hex4 48 48 (hex_lower (c / 16)) (hex_lower (c mod 16)) = Some c)) (N.of_nat <$> seq 0 32) = true)
        by (vm_compute; reflexivity).
      rewrite forallb_forall in Hall.
      assert (Hin : In c (N.of_nat <$> seq 0 32)); [|by apply (bool_decide_eq_true_1 _ (Hall c Hin))].
      apply elem_of_list_In. apply elem_of_list_fmap. exists (N.to_nat c). split; [lia|]. apply elem_of_seq. lia. }
    rewrite Hh. apply N.ltb_lt in E8.
    rewrite (proj2 (N.leb_gt 56320 c)), (proj2 (N.leb_gt 55296 c)) by lia. done.
  - cbn [app parse_str]. by rewrite E1, E2, E8.
Qed.
Lemma parse_str_esc s t : parse_str (concat (esc_char <$> s) ++ 34 :: t) = Some (s, t).
Proof.
  induction s as [|c s IH]; [done|]. rewrite fmap_cons. cbn [concat]. rewrite <- app_assoc.
  rewrite parse_str_char, IH. done.
Qed.

(** *** Numbers *)
(** No digit, fraction or exponent follows. *)
Definition stop (t : list N) : Prop :=
  match t with [] => True | c :: _ => is_dig c = false ∧ (c =? 46) = false ∧ (c =? 101) = false ∧ (c =? 69) = false end.
Lemma take_digits_app ds r : Forall (λ d, is_dig d = true) ds →
  match r with [] => True | c :: _ => is_dig c = false end → take_digits (ds ++ r) = (ds, r).
Proof.
  intros Hd Hr. induction Hd as [|d ds Hd Hds IH]; cbn [app take_digits].
  - destruct r as [|c r]; [done|]. cbn [take_digits]. by rewrite Hr.
  - by rewrite Hd, IH.
Qed.
Lemma take_digits_inv t ds r : take_digits t = (ds, r) →
  t = ds ++ r ∧ Forall (λ d, is_dig d = true) ds ∧ match r with [] => True | c :: _ => is_dig c = false end.
Proof.
  revert ds r. induction t as [|c t IH]; intros ds r; cbn [take_digits]; [by intros [= <- <-]|].
  destruct (is_dig c) eqn:E.
  - destruct (take_digits t) as [ds' r'] eqn:Et. intros [= <- <-]. destruct (IH _ _ eq_refl) as (-> & H1 & H2).
    split; [done|]. split; [by constructor|done].
  - intros [= <- <-]. done.
Qed.
Lemma scan_int_inv t ds r : scan_int t = Some (ds, r) → t = ds ++ r ∧ ds ≠ [] ∧
  ∀ r', match r' with [] => True | c :: _ => is_dig c = false end → scan_int (ds ++ r') = Some (ds, r').
Proof.
  destruct t as [|c t]; cbn [scan_int]; [done|]. destruct (c =? 48) eqn:E.
  - assert (∀ r', match r' with [] => True | c :: _ => is_dig c = false end → scan_int ([c] ++ r') = Some ([c], r')).
    { intros r' Hr'. cbn [app scan_int]. rewrite E. destruct r' as [|d r']; [done|]. by rewrite Hr'. }
    destruct t as [|d t]; [intros [= <- <-]; done|]. destruct (is_dig d) eqn:Ed; [done|]. intros [= <- <-]. done.
  - destruct (take_digits (c :: t)) as [[|d ds'] r'] eqn:Et; [done|]. intros [= <- <-].
    apply take_digits_inv in Et as (Ht & H1 & H2). split; [done|]. split; [done|].
    intros r'' Hr. change ((d :: ds') ++ r'') with (d :: (ds' ++ r'')). cbn [scan_int].
    assert (c = d) as <- by (by injection Ht). rewrite E.
    change (c :: ds' ++ r'') with ((c :: ds') ++ r''). by rewrite take_digits_app.
Qed.
Lemma scan_frac_app t fr : scan_frac t = Some (fr, []) → ∀ r, stop r → scan_frac (t ++ r) = Some (fr, r).
Proof.
  destruct t as [|c t]; cbn [scan_frac app].
  - intros [= <-] r Hr. destruct r as [|c r]; [done|]. cbn [scan_frac]. destruct Hr as (_ & -> & _). done.
  - destruct (c =? 46); [|done]. destruct (take_digits t) as [[|d ds] r'] eqn:E; [done|].
    intros [= <- ->] r Hr. apply take_digits_inv in E as (-> & H1 & _). rewrite app_nil_r.
    rewrite take_digits_app; [done|done|]. destruct r; [done|]. by destruct Hr.
Qed.
Lemma scan_exp_app t ex : scan_exp t = Some (ex, []) → ∀ r, stop r → scan_exp (t ++ r) = Some (ex, r).
Proof.
  destruct t as [|c t]; cbn [scan_exp app].
  - intros [= <-] r Hr. destruct r as [|c r]; [done|]. cbn [scan_exp]. destruct Hr as (_ & _ & -> & ->). done.
  - destruct ((c =? 101) || (c =? 69)); [|done].
    set (g := λ t' : list N, match t' with
                 | s :: t2 => if (s =? 43) || (s =? 45) then ([s], t2) else ([], t')
                 | [] => ([], []) end).
    change (match (g t) with (sg, t2) => match take_digits t2 with ([], _) => None | ((_ :: _) as ds, r) => Some (c :: sg ++ ds, r) end end = Some (ex, []) →
      ∀ r, stop r → match (g (t ++ r)) with (sg, t2) => match take_digits t2 with ([], _) => None | ((_ :: _) as ds, r) => Some (c :: sg ++ ds, r) end end = Some (ex, r)).
    destruct (g t) as [sg t2] eqn:Eg. destruct (take_digits t2) as [[|d ds] r'] eqn:E; [done|].
    intros [= <- ->] r Hr. assert (Eg' : g (t ++ r) = (sg, t2 ++ r)).
    { unfold g in *. destruct t as [|s t]; simpl in *; [simplify_eq; done|].
      destruct ((s =? 43) || (s =? 45)); by simplify_eq. }
    rewrite Eg'. apply take_digits_inv in E as (-> & H1 & _). rewrite app_nil_r.
    rewrite take_digits_app; [done|done|]. destruct r; [done|]. by destruct Hr.
Qed.
Lemma scan_frac_inv t fr r : scan_frac t = Some (fr, r) → t = fr ++ r.
Proof.
  destruct t as [|c t]; cbn [scan_frac]; [by intros [= <- <-]|]. destruct (c =? 46); [|by intros [= <- <-]].
  destruct (take_digits t) as [[|d ds] r'] eqn:E; [done|]. intros [= <- <-]. by apply take_digits_inv in E as (-> & _).
Qed.
Lemma scan_exp_inv t ex r : scan_exp t = Some (ex, r) → t = ex ++ r.
Proof.
  destruct t as [|c t]; cbn [scan_exp]; [by intros [= <- <-]|]. destruct ((c =? 101) || (c =? 69)); [|by intros [= <- <-]].
  destruct t as [|s t].
  - by cbn.
  - destruct ((s =? 43) || (s =? 45)).
    + destruct (take_digits t) as [[|d ds] r'] eqn:E; [done|]. intros [= <- <-]. by apply take_digits_inv in E as (-> & _).
    + destruct (take_digits (s :: t)) as [[|d ds] r'] eqn:E; [done|]. intros [= <- <-].
      apply take_digits_inv in E as (E & _). simpl in *. by rewrite E.
Qed.
(** A number text is read the same before any stop. *)
Lemma parse_num_app t v : parse_num t = Some (v, []) → ∀ r, stop r → parse_num (t ++ r) = Some (v, r).
Proof.
  unfold parse_num. intros H r Hr.
  set (g := λ t : list N, match t with c :: t' => if c =? 45 then ([c], t') else ([], t) | [] => ([], []) end) in *.
  change (match t with c :: t' => if c =? 45 then ([c], t') else ([], t) | [] => ([], []) end) with (g t) in H.
  change (match t ++ r with c :: t' => if c =? 45 then ([c], t') else ([], t ++ r) | [] => ([], []) end) with (g (t ++ r)).
  destruct (g t) as [sg t1] eqn:Eg.
  destruct (scan_int t1) as [[ds t2]|] eqn:E1; [|done].
  destruct (scan_frac t2) as [[fr t3]|] eqn:E2; [|done].
  destruct (scan_exp t3) as [[ex t4]|] eqn:E3; [|done].
  assert (Ht4 : t4 = []) by congruence. subst t4.
  pose proof E1 as E1'. apply scan_int_inv in E1' as (-> & Hne & Hint).
  assert (Eg' : g (t ++ r) = (sg, ds ++ t2 ++ r)).
  { unfold g in *. destruct t as [|s t]; simpl in *; [simplify_eq; by destruct ds|].
    destruct (s =? 45).
    - injection Eg as <- ->. by rewrite <- app_assoc.
    - injection Eg as <- Et. change (s :: t ++ r) with ((s :: t) ++ r). rewrite Et. by rewrite <- app_assoc. }
  rewrite Eg'. clear Eg Eg'.
  pose proof E2 as E2'. apply scan_frac_inv in E2'. pose proof E3 as E3'. apply scan_exp_inv in E3'. rewrite app_nil_r in E3'. subst t3.
  assert (Hi : scan_int (ds ++ t2 ++ r) = Some (ds, t2 ++ r)).
  { apply Hint. destruct t2 as [|c t2]; simpl; [destruct r; [done|]; by destruct Hr|].
    specialize (Hint (c :: t2)). destruct (is_dig c) eqn:Ec; [|done]. exfalso.
    assert (c = 46 ∨ c = 101 ∨ c = 69) as Hc.
    { cbn [scan_frac] in E2. destruct (c =? 46) eqn:Ec1; [left; by apply N.eqb_eq|]. right.
      injection E2 as <- <-. simpl in E2'. cbn [scan_exp] in E3. destruct ((c =? 101) || (c =? 69)) eqn:Ec2; [|done].
      apply orb_true_iff in Ec2 as [Ec2|Ec2]; apply N.eqb_eq in Ec2; auto. }
    unfold is_dig in Ec. apply andb_true_iff in Ec as [Ec1 Ec2]. apply N.leb_le in Ec1, Ec2. lia. }
  rewrite Hi.
  assert (Hf : scan_frac (t2 ++ r) = Some (fr, ex ++ r)).
  { destruct t2 as [|c t2].
    - injection E2 as <- <-. apply scan_frac_app; done.
    - cbn [app scan_frac] in *. destruct (c =? 46).
      + destruct (take_digits t2) as [[|d ds'] r'] eqn:E; [done|]. injection E2 as <- ->.
        pose proof E as E4. apply take_digits_inv in E4 as (-> & H1 & H2). rewrite <- app_assoc.
        rewrite take_digits_app; [done|done|]. destruct ex as [|x ex]; [destruct r; [done|]; by destruct Hr|done].
      + by injection E2 as <- <-. }
  rewrite Hf. rewrite (scan_exp_app _ _ E3 r Hr). by injection H as <-.
Qed.

Lemma digits_fuel_head f n acc : 0 < n → n < 2 ^ N.of_nat f → ∃ d r, digits_fuel f n acc = d :: r ∧ 49 <= d <= 57.
Proof.
  revert n acc. induction f as [|f IH]; intros n acc H0 Hn; [simpl in Hn; lia|]. cbn [digits_fuel].
  pose proof (N.div_mod n 10 ltac:(lia)) as Hdm. pose proof (N.mod_lt n 10 ltac:(lia)) as Hml.
  set (q := n / 10) in *. set (r := n mod 10) in *. clearbody q r. destruct (q =? 0) eqn:E.
  - apply N.eqb_eq in E. eexists _, _. split; [done|]. lia.
  - apply N.eqb_neq in E. apply IH; [lia|]. rewrite Nat2N.inj_succ, N.pow_succ_r' in Hn. lia.
Qed.
Lemma show_N_head n : 0 < n → ∃ d r, show_N n = d :: r ∧ 49 <= d <= 57.
Proof.
  intros H. apply digits_fuel_head; [done|]. pose proof (size_nat_bound n).
  rewrite Nat2N.inj_succ, N.pow_succ_r'. lia.
Qed.
Lemma parse_digits_val max acc l v : parse_digits max acc l = Some v → fold_left (λ a d, a * 10 + (d - 48)) l acc = v.
Proof.
  revert acc. induction l as [|d l IH]; intros acc; cbn [parse_digits fold_left]; [by intros [= ->]|].
  destruct (_ && _); [|done]. destruct (_ <=? _); [|done]. apply IH.
Qed.
Lemma digits_val_show n : digits_val (show_N n) = n.
Proof.
  unfold digits_val, show_N. apply (parse_digits_val n). apply parse_digits_fuel; [|lia].
  pose proof (size_nat_bound n). rewrite Nat2N.inj_succ, N.pow_succ_r'. lia.
Qed.
Lemma scan_int_show n r : match r with [] => True | c :: _ => is_dig c = false end → scan_int (show_N n ++ r) = Some (show_N n, r).
Proof.
  intros Hr. destruct (decide (n = 0)) as [->|Hn].
  - change (show_N 0) with [48]. cbn [app scan_int]. change (48 =? 48) with true. cbn iota. destruct r; [done|]. by rewrite Hr.
  - destruct (show_N_head n ltac:(lia)) as (d & l & E & Hd).
    assert (Hall : Forall (λ d, is_dig d = true) (show_N n)).
    { apply Forall_forall. intros x Hx. apply show_N_digits in Hx. unfold is_dig. apply andb_true_iff. split; apply N.leb_le; lia. }
    rewrite E in *. cbn [app scan_int]. rewrite (proj2 (N.eqb_neq d 48)) by lia.
    change (d :: l ++ r) with ((d :: l) ++ r). by rewrite take_digits_app.
Qed.
Lemma stop_dig r : stop r → match r with [] => True | c :: _ => is_dig c = false end.
Proof. destruct r; [done|]. by intros [? _]. Qed.
Lemma scan_stop r : stop r → scan_frac r = Some ([], r) ∧ scan_exp r = Some ([], r).
Proof.
  destruct r as [|c r]; [done|]. intros (_ & H1 & H2 & H3). cbn [scan_frac scan_exp]. by rewrite H1, H2, H3.
Qed.
Lemma parse_num_show z r : (- Z.of_N i64_min_abs <= z <= Z.of_N u64_max)%Z → stop r →
  parse_num (show_Z z ++ r) = Some (JInt z, r).
Proof.
  intros Hz Hr. destruct (scan_stop r Hr) as [Hf He]. unfold parse_num, show_Z. destruct z as [|p|p].
  - change (Z.to_N 0) with 0. change (show_N 0 ++ r) with (48 :: r). cbn [app]. change (48 =? 45) with false. cbn iota.
    change (48 :: r) with (show_N 0 ++ r). rewrite scan_int_show by (by apply stop_dig). by rewrite Hf, He.
  - change (Z.to_N (Z.pos p)) with (Npos p). destruct (show_N_head (Npos p) ltac:(lia)) as (d & l & E & Hd).
    rewrite E. cbn [app]. rewrite (proj2 (N.eqb_neq d 45)) by lia. change (d :: l ++ r) with ((d :: l) ++ r). rewrite <- E.
    rewrite scan_int_show by (by apply stop_dig). rewrite Hf, He. rewrite digits_val_show. cbn [app].
    rewrite (proj2 (N.leb_le _ _)) by lia. done.
  - cbn [app]. change (45 =? 45) with true. cbn iota.
    rewrite scan_int_show by (by apply stop_dig). rewrite Hf, He. rewrite digits_val_show. cbn [app].
    rewrite (proj2 (N.ltb_lt _ _)), (proj2 (N.leb_le _ _)) by lia. done.
Qed.

(** *** Documents *)
Lemma strip_app p r : strip p (p ++ r) = Some r.
Proof. induction p as [|x p IH]; [done|]. cbn [app strip]. by rewrite N.eqb_refl. Qed.
Lemma skip_ws_id c r : json_ws c = false → skip_ws (c :: r) = c :: r.
Proof. intros H. unfold skip_ws. cbn [drop_while]. by rewrite H. Qed.
Lemma stop_cons c r : is_dig c = false → (c =? 46) = false → (c =? 101) = false → (c =? 69) = false → stop (c :: r).
Proof. done. Qed.

(** First characters of texts. *)
Definition num_first (c : N) : Prop := c = 45 ∨ 48 <= c <= 57.
Lemma show_Z_head z : ∃ c l, show_Z z = c :: l ∧ num_first c.
Proof.
  unfold show_Z, num_first. destruct z as [|p|p].
  - exists 48, []. split; [done|]. lia.
  - destruct (show_N_head (Npos p) ltac:(lia)) as (d & l & E & Hd). exists d, l. split; [exact E|]. lia.
  - eexists _, _. split; [done|]. by left.
Qed.
Lemma float_head t : float_text t → ∃ c l, t = c :: l ∧ num_first c.
Proof.
  unfold float_text, parse_num, num_first. destruct t as [|c t]; [done|]. destruct (c =? 45) eqn:E.
  - apply N.eqb_eq in E as ->. intros _. eexists _, _. split; [done|]. by left.
  - destruct (scan_int (c :: t)) as [[ds r]|] eqn:Es; [|done]. intros _. eexists _, _. split; [done|]. right.
    cbn [scan_int] in Es. destruct (c =? 48) eqn:Ec; [apply N.eqb_eq in Ec; lia|].
    cbn [take_digits] in Es. destruct (is_dig c) eqn:Ed; [|done]. unfold is_dig in Ed.
    apply andb_true_iff in Ed as [E1 E2]. apply N.leb_le in E1, E2. lia.
Qed.
Lemma num_first_pv c r f d : num_first c → pv (S f) d (c :: r) = parse_num (c :: r).
Proof.
  intros H. cbn [pv]. assert (Hne : ∀ x, x = 32 ∨ x = 10 ∨ x = 9 ∨ x = 13 ∨ 57 < x ∨ x = 34 → (c =? x) = false).
  { intros x Hx. apply N.eqb_neq. unfold num_first in H. lia. }
  rewrite skip_ws_id by (unfold json_ws; rewrite !Hne by auto; done).
  rewrite !Hne by lia. done.
Qed.
(** Values start with a character that is neither white space nor a closing bracket. *)
Definition first_ok (c : N) : Prop := json_ws c = false ∧ (c =? 93) = false ∧ (c =? 125) = false.
Lemma show_head v : wf v → ∃ c l, show v = c :: l ∧ first_ok c.
Proof.
  assert (Hnum : ∀ c, num_first c → first_ok c).
  { intros c H. unfold num_first in H. unfold first_ok, json_ws.
    rewrite !(proj2 (N.eqb_neq c _)) by lia. done. }
  destruct v as [|[]| | | | |]; intros Hw; try (eexists _, _; split; [reflexivity|done]).
  - destruct (show_Z_head z) as (c & l & E & H). exists c, l. split; [done|auto].
  - destruct (float_head t Hw) as (c & l & E & H). exists c, l. split; [done|auto].
Qed.

Definition reads (v : json) : Prop := ∀ f d rest, (nodes v <= f)%nat → (depth v < d)%nat → stop rest →
  pv f d (show v ++ rest) = Some (v, rest).

Lemma pitems_show l : Forall reads l → Forall wf l → l ≠ [] → ∀ f d rest,
  (foldr (λ x n, S (nodes x) + n)%nat 0%nat l <= f)%nat →
  (foldr (λ x n, Nat.max (depth x) n) 0%nat l < d)%nat →
  pitems f d (join_with [44] (show <$> l) ++ 93 :: rest) = Some (l, rest).
Proof.
  intros Hr Hw. revert Hw. induction Hr as [|x l Hx Hr IH]; intros Hw Hne f d rest Hf Hd; [done|].
  inversion Hw as [|? ? Hwx Hwl]; subst. cbn [foldr] in Hf, Hd. destruct f as [|f]; [lia|]. cbn [pitems].
  destruct l as [|y l].
  - cbn [join_with fmap list_fmap]. rewrite Hx; [|simpl in Hf; lia|lia|by apply stop_cons].
    rewrite skip_ws_id by done. done.
  - change (join_with [44] (show <$> x :: y :: l)) with (show x ++ [44] ++ join_with [44] (show <$> y :: l)).
    rewrite <- !app_assoc. cbn [app]. rewrite Hx; [|lia|lia|by apply stop_cons].
    rewrite skip_ws_id by done. change (44 =? 44) with true. cbn iota.
    rewrite IH; [done|done|done|lia|lia].
Qed.
Lemma pfields_show l : Forall (λ kv, reads kv.2) l → Forall (λ kv, wf kv.2) l → l ≠ [] → ∀ f d rest,
  (foldr (λ x n, S (nodes x.2) + n)%nat 0%nat l <= f)%nat →
  (foldr (λ x n, Nat.max (depth x.2) n) 0%nat l < d)%nat →
  pfields f d (join_with [44] ((λ kv, show_str kv.1 ++ 58 :: show kv.2) <$> l) ++ 125 :: rest) = Some (l, rest).
Proof.
  intros Hr Hw. revert Hw. induction Hr as [|[k x] l Hx Hr IH]; intros Hw Hne f d rest Hf Hd; [done|].
  inversion Hw as [|? ? Hwx Hwl]; subst. cbn [foldr snd] in Hf, Hd, Hx, Hwx. destruct f as [|f]; [lia|]. cbn [pfields].
  assert (Hstep : ∀ t, skip_ws ((show_str k ++ 58 :: show x) ++ t) = 34 :: concat (esc_char <$> k) ++ 34 :: 58 :: show x ++ t).
  { intros t. unfold show_str. cbn [app]. rewrite skip_ws_id by done. f_equal. rewrite <- !app_assoc. done. }
  destruct l as [|y l].
  - rewrite fmap_cons, fmap_nil. cbn [join_with fst snd]. rewrite Hstep. change (34 =? 34) with true. cbn iota.
    rewrite parse_str_esc. rewrite skip_ws_id by done. change (58 =? 58) with true. cbn iota.
    rewrite Hx; [|simpl in Hf; lia|lia|by apply stop_cons].
    rewrite skip_ws_id by done. done.
  - change (join_with [44] ((λ kv, show_str kv.1 ++ 58 :: show kv.2) <$> (k, x) :: y :: l))
      with ((show_str k ++ 58 :: show x) ++ [44] ++ join_with [44] ((λ kv, show_str kv.1 ++ 58 :: show kv.2) <$> y :: l)).
    rewrite <- !(app_assoc (show_str k ++ 58 :: show x)). rewrite Hstep. change (34 =? 34) with true. cbn iota.
    rewrite parse_str_esc. rewrite skip_ws_id by done. change (58 =? 58) with true. cbn iota.
    cbn [app]. rewrite Hx; [|lia|lia|by apply stop_cons].
    rewrite skip_ws_id by done. change (44 =? 44) with true. cbn iota.
    rewrite IH; [done|done|done|lia|lia].
Qed.

Lemma pv_show v : wf v → reads v.
Proof.
  induction v as [|b|z|t|s|l IH|l IH] using json_ind'; intros Hw f d rest Hf Hd Hs.
  - destruct f; [simpl in Hf; lia|]. done.
  - destruct f; [simpl in Hf; lia|]. by destruct b.
  - destruct f; [simpl in Hf; lia|]. cbn [show]. destruct (show_Z_head z) as (c & l & E & H).
    rewrite E. cbn [app]. rewrite num_first_pv by done. change (c :: l ++ rest) with ((c :: l) ++ rest). rewrite <- E.
    by apply parse_num_show.
  - destruct f; [simpl in Hf; lia|]. cbn [show]. destruct (float_head t Hw) as (c & l & E & H).
    rewrite E at 1. cbn [app]. rewrite num_first_pv by done. change (c :: l ++ rest) with ((c :: l) ++ rest). rewrite <- E.
    by apply parse_num_app.
  - destruct f; [simpl in Hf; lia|]. cbn [show pv]. unfold show_str. cbn [app]. rewrite skip_ws_id by done.
    change (34 =? 110) with false. change (34 =? 116) with false. change (34 =? 102) with false. change (34 =? 34) with true. cbn iota.
    rewrite <- app_assoc. cbn [app]. by rewrite parse_str_esc.
  - rewrite wf_arr in Hw. cbn [nodes depth] in Hf, Hd. destruct f as [|f]; [lia|]. destruct d as [|[|d]]; [lia|lia|].
    cbn [show pv app]. rewrite skip_ws_id by done.
    change (91 =? 110) with false. change (91 =? 116) with false. change (91 =? 102) with false.
    change (91 =? 34) with false. change (91 =? 91) with true. cbn iota. rewrite <- app_assoc. cbn [app].
    assert (Hr : Forall reads l).
    { clear -IH Hw. induction IH; inversion Hw; subst; constructor; auto. }
    destruct l as [|x l]; [done|].
    inversion Hw as [|? ? Hwx Hwl]; subst. destruct (show_head x Hwx) as (c & t & E & Hc1 & Hc2 & _).
    assert (Hh : ∃ t', join_with [44] (show <$> x :: l) ++ 93 :: rest = c :: t').
    { rewrite fmap_cons. destruct (show <$> l) as [|y m]; cbn [join_with]; rewrite E; cbn [app]; eauto. }
    destruct Hh as [t' Hh].
    pose proof (pitems_show (x :: l) Hr Hw ltac:(done) f (S d) rest ltac:(lia) ltac:(lia)) as Hp. rewrite Hh in Hp |- *.
    rewrite skip_ws_id by done. rewrite Hc2. by rewrite Hp.
  - rewrite wf_obj in Hw. cbn [nodes depth] in Hf, Hd. destruct f as [|f]; [lia|]. destruct d as [|[|d]]; [lia|lia|].
    cbn [show pv app]. rewrite skip_ws_id by done.
    change (123 =? 110) with false. change (123 =? 116) with false. change (123 =? 102) with false.
    change (123 =? 34) with false. change (123 =? 91) with false. change (123 =? 123) with true. cbn iota. rewrite <- app_assoc. cbn [app].
    assert (Hr : Forall (λ kv, reads kv.2) l).
    { clear -IH Hw. induction IH; inversion Hw; subst; constructor; auto. }
    destruct l as [|x l]; [done|].
    assert (Hh : ∃ t', join_with [44] ((λ kv, show_str kv.1 ++ 58 :: show kv.2) <$> x :: l) ++ 125 :: rest = 34 :: t').
    { rewrite fmap_cons. destruct (_ <$> l) as [|y m]; cbn [join_with]; unfold show_str; cbn [app]; eauto. }
    destruct Hh as [t' Hh].
    pose proof (pfields_show (x :: l) Hr Hw ltac:(done) f (S d) rest ltac:(lia) ltac:(lia)) as Hp. rewrite Hh in Hp |- *.
    rewrite skip_ws_id by done. change (34 =? 125) with false. cbn iota. by rewrite Hp.
Qed.

Lemma nodes_length v : wf v → (nodes v <= length (show v))%nat.
Proof.
  induction v as [|b|z|t|s|l IH|l IH] using json_ind'; intros Hw.
  - simpl. lia.
  - destruct b; simpl; lia.
  - destruct (show_Z_head z) as (c & t & E & _). cbn [show nodes]. rewrite E. simpl. lia.
  - destruct (float_head t Hw) as (c & t' & E & _). cbn [show nodes]. rewrite E. simpl. lia.
  - simpl. lia.
  - rewrite wf_arr in Hw. cbn [show nodes]. cbn [length]. rewrite app_length. cbn [length].
    enough (foldr (λ x n, S (nodes x) + n)%nat 0%nat l <= length (join_with [44%N] (show <$> l : list (list N))) + 1)%nat by lia.
    induction l as [|x l IHl]; [simpl; lia|]. inversion IH as [|? ? Hx Hl]; subst. inversion Hw as [|? ? Hwx Hwl]; subst.
    specialize (Hx Hwx). specialize (IHl Hl Hwl). cbn [foldr]. destruct l as [|y l].
    + simpl. lia.
    + change (join_with [44] (show <$> x :: y :: l)) with (show x ++ [44] ++ join_with [44] (show <$> y :: l)).
      rewrite !app_length. change (length [44]) with 1%nat. lia.
  - rewrite wf_obj in Hw. cbn [show nodes]. cbn [length]. rewrite app_length. cbn [length].
    enough (foldr (λ x n, S (nodes x.2) + n)%nat 0%nat l <= length (join_with [44%N] ((λ kv, show_str kv.1 ++ 58%N :: show kv.2) <$> l : list (list N))) + 1)%nat by lia.
    induction l as [|x l IHl]; [simpl; lia|]. inversion IH as [|? ? Hx Hl]; subst. inversion Hw as [|? ? Hwx Hwl]; subst.
    specialize (Hx Hwx). specialize (IHl Hl Hwl). cbn [foldr]. destruct l as [|y l].
    + cbn [fmap list_fmap join_with]. rewrite app_length. simpl. lia.
    + change (join_with [44] ((λ kv, show_str kv.1 ++ 58 :: show kv.2) <$> x :: y :: l))
        with ((show_str x.1 ++ 58 :: show x.2) ++ [44] ++ join_with [44] ((λ kv, show_str kv.1 ++ 58 :: show kv.2) <$> y :: l)).
      rewrite !app_length. cbn [length]. change (length [44]) with 1%nat. lia.
Qed.

Lemma parse_show v : wf v → (depth v < 128)%nat → parse (show v) = Some v.
Proof.
  intros Hw Hd. unfold parse. pose proof (pv_show v Hw (S (length (show v))) 128%nat []) as H.
  rewrite app_nil_r in H. pose proof (nodes_length v Hw). rewrite H; [done|lia|lia|done].
Qed.

Lemma obj_insert_new {A} k (v : A) l : k ∉ l.*1 → obj_insert k v l = l ++ [(k, v)].
Proof.
  induction l as [|[k' v'] l IH]; intros Hk; [done|]. cbn [obj_insert app]. rewrite fmap_cons in Hk.
  apply not_elem_of_cons in Hk as [Hk1 Hk2]. simpl in Hk1. rewrite decide_False by done. by rewrite IH.
Qed.
Lemma obj_of_id {A} (l : list (list N * A)) : NoDup l.*1 → obj_of l = l.
Proof.
  unfold obj_of. enough (∀ acc, NoDup (acc ++ l).*1 → fold_left (λ m kv, obj_insert kv.1 kv.2 m) l acc = acc ++ l) as H.
  { intros Hn. by apply H. }
  induction l as [|[k v] l IH]; intros acc Hn; cbn [fold_left fst snd]; [by rewrite app_nil_r|].
  rewrite obj_insert_new.
  - rewrite IH; [by rewrite <- app_assoc|]. by rewrite <- app_assoc.
  - rewrite fmap_app in Hn. apply NoDup_app in Hn as (_ & Hn & _). intros Hk. apply (Hn k Hk). rewrite fmap_cons. apply elem_of_list_here.
Qed.
Lemma norm_id v : keys_ok v → norm v = v.
Proof.
  induction v as [|b|z|t|s|l IH|l IH] using json_ind'; intros Hk; try done.
  - rewrite keys_ok_arr in Hk. cbn [norm]. f_equal. induction IH as [|x l Hx Hl IHl]; [done|].
    inversion Hk; subst. rewrite fmap_cons. f_equal; auto.
  - rewrite keys_ok_obj in Hk. destruct Hk as [Hn Hk]. cbn [norm]. f_equal.
    assert (E : (λ kv, (kv.1, norm kv.2)) <$> l = l).
    { clear Hn. induction IH as [|x l Hx Hl IHl]; [done|]. inversion Hk; subst. rewrite fmap_cons. f_equal; [|auto].
      destruct x as [k v]. simpl in *. f_equal. auto. }
    rewrite E. by apply obj_of_id.
Qed.
Lemma parse_value_show v : wf v → keys_ok v → (depth v < 128)%nat → parse_value (show v) = Some v.
Proof. intros H1 H2 H3. unfold parse_value. rewrite parse_show by done. simpl. by rewrite norm_id. Qed.

Example parse_example :
  parse_value (lit " {""a"": [1, -2.5e3, ""xé\n😀""], ""b"":null ,""a"": true}") =
    Some (JObj [(lit "a", JBool true); (lit "b", JNull)]) ∧
  parse (lit "[1,]") = None ∧ parse (lit "01") = None ∧ parse (lit "-") = None ∧ parse (lit "1 2") = None ∧
  parse (lit """\ud83d""") = None ∧ float_text (lit "-2.5e3") ∧
  parse (lit "[18446744073709551615,18446744073709551616,-9223372036854775808,-0]") =
    Some (JArr [JInt 18446744073709551615; JFloat (lit "18446744073709551616"); JInt (-9223372036854775808); JFloat (lit "-0")]).
Proof. split_and!; vm_compute; reflexivity. Qed.

(** *** Documents a Rust program can hold: strings are Unicode scalar values *)
Fixpoint scalars (v : json) : Prop :=
  match v with
  | JStr s | JFloat s => Forall scalar s
  | JArr l => (fix go l := match l with [] => True | x :: l => scalars x ∧ go l end) l
  | JObj l => (fix go (l : list (list N * json)) := match l with [] => True | x :: l => (Forall scalar x.1 ∧ scalars x.2) ∧ go l end) l
  | _ => True
  end.
Lemma scalars_arr l : scalars (JArr l) ↔ Forall scalars l.
Proof. cbn [scalars]. induction l as [|x l IH]; [done|]. by rewrite Forall_cons, IH. Qed.
Lemma scalars_obj l : scalars (JObj l) ↔ Forall (λ kv, Forall scalar kv.1 ∧ scalars kv.2) l.
Proof. cbn [scalars]. induction l as [|x l IH]; [done|]. by rewrite Forall_cons, IH. Qed.

Definition plain (t : list N) : Prop := Forall (λ c, c < 128) t.
Lemma plain_scalar t : plain t → Forall scalar t.
Proof. intros H. eapply Forall_impl; [exact H|]. intros c Hc. cbn in Hc. left. lia. Qed.
Lemma lit_null : plain (lit "null"). Proof. repeat constructor; cbn; lia. Qed.
Lemma lit_true : plain (lit "true"). Proof. repeat constructor; cbn; lia. Qed.
Lemma lit_false : plain (lit "false"). Proof. repeat constructor; cbn; lia. Qed.
Lemma show_N_plain n : plain (show_N n).
Proof. apply Forall_forall. intros d Hd%show_N_digits. lia. Qed.
Lemma show_Z_plain z : plain (show_Z z).
Proof. destruct z; cbn [show_Z]; try apply show_N_plain. constructor; [lia|apply show_N_plain]. Qed.
Lemma esc_char_scalar c : scalar c → Forall scalar (esc_char c).
Proof.
  intros Hc. unfold esc_char, hex_lower.
  assert (c <? 32 = true → c / 16 < 16) by (rewrite N.ltb_lt; intros; apply N.div_lt_upper_bound; [done|lia]).
  assert (c mod 16 < 16) by (apply N.mod_lt; lia).
  set (q := c / 16) in *. set (r := c mod 16) in *. clearbody q r.
  destruct (c <? 32) eqn:E; repeat case_match; repeat (apply Forall_cons; split); try apply Forall_nil_2; try done; left; lia.
Qed.
Lemma show_str_scalar s : Forall scalar s → Forall scalar (show_str s).
Proof.
  intros Hs. unfold show_str. constructor; [left; lia|]. rewrite Forall_app. split; [|repeat constructor; left; lia].
  induction Hs as [|c s Hc _ IH]; [constructor|]. rewrite fmap_cons. cbn [concat]. rewrite Forall_app.
  split; [by apply esc_char_scalar|done].
Qed.
Lemma join_scalar ls : Forall (Forall scalar) ls → Forall scalar (join_with [44] ls).
Proof.
  induction 1 as [|l ls Hl Hls IH]; [constructor|]. cbn. destruct ls; [done|].
  rewrite Forall_app. split; [done|]. constructor; [left; lia|done].
Qed.
Lemma show_scalar v : scalars v → Forall scalar (show v).
Proof.
  induction v as [|b|z|t|s|l IH|l IH] using json_ind'; cbn [show].
  - intros _. apply plain_scalar, lit_null.
  - intros _. destruct b; apply plain_scalar; [apply lit_true|apply lit_false].
  - intros _. apply plain_scalar, show_Z_plain.
  - done.
  - apply show_str_scalar.
  - rewrite scalars_arr. intros Hl. constructor; [left; lia|]. rewrite Forall_app. split; [|repeat constructor; left; lia].
    apply join_scalar. rewrite Forall_fmap. apply Forall_forall. intros x Hx. rewrite Forall_forall in IH. rewrite Forall_forall in Hl. cbn. eauto.
  - rewrite scalars_obj. intros Hl. constructor; [left; lia|]. rewrite Forall_app. split; [|repeat constructor; left; lia].
    apply join_scalar. rewrite Forall_fmap. apply Forall_forall. intros x Hx. rewrite Forall_forall in IH. rewrite Forall_forall in Hl.
    change (Forall scalar (show_str x.1 ++ 58 :: show x.2)). destruct (Hl x Hx). rewrite Forall_app. split; [by apply show_str_scalar|]. constructor; [left; lia|]. eauto.
Qed.

(** What serde_json can write and read back: numbers in range, distinct keys, Unicode strings,
    nesting below the recursion limit. *)
Definition storable (v : json) : Prop := wf v ∧ keys_ok v ∧ scalars v ∧ (depth v < 128)%nat.
(** to_vec and from_slice *)
Definition to_bytes (v : json) : list N := utf8 (show v).
Definition of_bytes (bs : list N) : option json := match utf8_decode bs with Some t => parse_value t | None => None end.
Lemma of_to_bytes v : storable v → of_bytes (to_bytes v) = Some v.
Proof.
  intros (Hw & Hk & Hs & Hd). unfold of_bytes, to_bytes. rewrite utf8_decode_encode by by apply show_scalar.
  by apply parse_value_show.
Qed.
