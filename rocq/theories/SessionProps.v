(** Properties C11 - C14 and C68 - C70 (sessions). *)
From Coq Require Import Ascii.
From stdpp Require Import gmap strings list.
From Verif Require Import ListLib TextLib WhiteSpec SessionModel SessionSpec SessionProofs.

(** C11, the part that holds: while never more than [C] calls are in progress at once, at most
    [max_sessions + C - 1] sessions exist; for one caller ([C] = 1) this is the limit itself. *)
Theorem C11_limit_partial : ∀ max_sessions timeout C h,
  (∀ h', h' `prefix_of` h → size (calls (sruns max_sessions timeout mgr0 h')) ≤ C) →
  size (sessions (sruns max_sessions timeout mgr0 h)) ≤ max_sessions + C - 1.
Proof. exact session_limit. Qed.
Print Assumptions C11_limit_partial.

(** C11: one caller at a time: creation is refused exactly when the limit is reached, otherwise
    exactly the new session is added. *)
Theorem C11_create_exact : ∀ max_sessions timeout m client id now, calls m !! 0 = None →
  create_session max_sessions timeout m client id now =
  if decide (size (sessions m) < max_sessions)
  then (MkMgr (<[id := MkSession id now now (now + timeout) client 0 false None]> (sessions m)) (calls m),
        RSession (MkSession id now now (now + timeout) client 0 false None))
  else (m, RLimit).
Proof.
  intros M T m client id now H. unfold create_session. cbn [sexec]. rewrite H.
  destruct (decide (M ≤ size (sessions m))) as [Hle|Hgt].
  - rewrite decide_False by lia. done.
  - rewrite decide_True by lia. cbn [sexec calls sessions]. rewrite lookup_insert.
    by rewrite delete_insert.
Qed.
Print Assumptions C11_create_exact.

(** C11 fails for concurrent creations: from every state with room for one session, any number of
    calls that all check the limit before any of them inserts all succeed. *)
Theorem C11_concurrent_create_refuted : ∀ max_sessions timeout m (cs : list (nat * nat * string * Z)),
  size (sessions m) < max_sessions →
  NoDup cs.*1.*1.*1 → NoDup cs.*1.*2 → (∀ t, t ∈ cs.*1.*1.*1 → calls m !! t = None) → (∀ id, id ∈ cs.*1.*2 → sessions m !! id = None) →
  size (sessions (sruns max_sessions timeout m
    (((λ '(t, client, id, now), CreateCheck t client) <$> cs) ++ ((λ '(t, client, id, now), CreateInsert t id now) <$> cs))))
  = size (sessions m) + length cs.
Proof.
  intros M T m cs H1 H2 H3 H4 H5. pose proof (creates_exceed M T m cs H1 H2 H3 H4 H5) as H.
  assert (((λ '(t, client, id, now), CreateCheck t client) <$> cs) = (λ p : nat * nat * string * Z, CreateCheck p.1.1.1 p.1.1.2) <$> cs) as -> by (apply list_fmap_ext; by intros ? [[[??]?]?] _).
  assert (((λ '(t, client, id, now), CreateInsert t id now) <$> cs) = (λ p : nat * nat * string * Z, CreateInsert p.1.1.1 p.1.2 p.2) <$> cs) as -> by (apply list_fmap_ext; by intros ? [[[??]?]?] _).
  exact H.
Qed.
Print Assumptions C11_concurrent_create_refuted.

(** C12, the part that holds: if no lookup of the session is in progress when it is destroyed, it
    stays gone whatever happens afterwards, in any interleaving, until its id is created anew. *)
Theorem C12_destroyed_stays_partial : ∀ max_sessions timeout m id h,
  no_reader id m → (∀ t now, CreateInsert t id now ∉ h) →
  sessions (sruns max_sessions timeout (sexec max_sessions timeout m (Destroy id)).1 h) !! id = None.
Proof. exact gone_forever. Qed.
Print Assumptions C12_destroyed_stays_partial.

(** C12 fails otherwise: a lookup that had read the session puts it back, whatever was done to the
    session in between, destroying it included. *)
Theorem C12_resurrected_refuted : ∀ max_sessions timeout m t v id s now h1 h2,
  calls m !! t = None → sessions m !! id = Some s → GetWrite t ∉ h1 ++ Destroy id :: h2 →
  sessions (sruns max_sessions timeout m (GetRead t v id now :: (h1 ++ Destroy id :: h2) ++ [GetWrite t])) !! id = Some (touch now s).
Proof. intros. by apply written_back. Qed.
Print Assumptions C12_resurrected_refuted.

(** C13: validate_session never returns an expired session, in any interleaving ... *)
Theorem C13_validate_not_expired : ∀ max_sessions timeout m t now s,
  (sexec max_sessions timeout m (ValidateEnd t now)).2 = RSession s →
  (now <= s_expires s)%Z ∧ ∃ id, calls m !! t = Some (PCheck id s).
Proof. exact validate_not_expired. Qed.
Print Assumptions C13_validate_not_expired.

(** ... and without interference it succeeds exactly for live sessions and destroys expired ones. *)
Theorem C13_validate_exact : ∀ max_sessions timeout m id now now',
  calls m !! 0 = None →
  validate_session max_sessions timeout m id now now' =
  match sessions m !! id with
  | Some s => if decide (s_expires s < now')%Z
              then (MkMgr (delete id (sessions m)) (calls m), RExpired)
              else (MkMgr (<[id := touch now s]> (sessions m)) (calls m), RSession (touch now s))
  | None => (m, RInvalid)
  end.
Proof. exact validate_session_spec. Qed.
Print Assumptions C13_validate_exact.

(** C13: cleanup removes exactly the expired sessions. *)
Theorem C13_cleanup_exact : ∀ max_sessions timeout m now, calls m !! 0 = None →
  (∀ id, sessions (cleanup_expired max_sessions timeout m now) !! id =
    match sessions m !! id with
    | Some s => if decide (s_expires s < now)%Z then None else Some s
    | None => None
    end) ∧ calls (cleanup_expired max_sessions timeout m now) = calls m.
Proof. exact cleanup_spec. Qed.
Print Assumptions C13_cleanup_exact.

(** C13 fails for get_session and the HTTP middleware: expiry is not looked at, every stored
    session is handed out at every time. *)
Theorem C13_middleware_accepts_expired_refuted : ∀ max_sessions timeout m id s now,
  calls m !! 0 = None → sessions m !! id = Some s →
  (middleware_session max_sessions timeout m (Some id) now).2 = Some (touch now s).
Proof.
  intros M T m id s now Hc Hs. unfold middleware_session.
  rewrite get_session_spec by done. by rewrite Hs.
Qed.
Print Assumptions C13_middleware_accepts_expired_refuted.

(** C68: activity does not prolong a session: over every history (with updates that do not rewrite
    the lifetime) the expiry is creation time plus timeout. *)
Theorem C68_lifetime_fixed_refuted : ∀ max_sessions timeout h,
  Forall keeps_expiry h →
  ∀ id s, sessions (sruns max_sessions timeout mgr0 h) !! id = Some s →
  s_id s = id ∧ s_expires s = (s_created s + timeout)%Z.
Proof. intros M T h Hf id s Hs. by apply (proj1 (good_runs M T h Hf)). Qed.
Print Assumptions C68_lifetime_fixed_refuted.

(** C14: a step changes no session other than the one it is about. *)
Theorem C14_isolation : ∀ max_sessions timeout m o id,
  target m o ≠ Some id →
  sessions (sexec max_sessions timeout m o).1 !! id = sessions m !! id.
Proof. exact isolation. Qed.
Print Assumptions C14_isolation.

(** C14: what an authentication and an update change: the stored session gets the new contents and
    activity time, nothing else about it changes, and an unknown session is an error. *)
Theorem C14_update_exact : ∀ max_sessions timeout m id f now,
  sexec max_sessions timeout m (Update id f now) =
  match sessions m !! id with
  | Some s => (MkMgr (<[id := touch now (f s)]> (sessions m)) (calls m), ROk)
  | None => (m, RInvalid)
  end.
Proof. done. Qed.
Print Assumptions C14_update_exact.
Theorem C14_authenticate_exact : ∀ max_sessions timeout m id info now s,
  sessions m !! id = Some s →
  ∃ s', sessions (sexec max_sessions timeout m (Update id (set_auth info) now)).1 !! id = Some s' ∧
    s_auth s' = true ∧ s_auth_info s' = Some info ∧ s_last s' = now ∧
    s_id s' = s_id s ∧ s_created s' = s_created s ∧ s_expires s' = s_expires s ∧
    s_client s' = s_client s ∧ s_data s' = s_data s.
Proof. intros M T m id info now s H. cbn [sexec]. rewrite H. cbn. rewrite lookup_insert. eexists. split; [done|]. done. Qed.
Print Assumptions C14_authenticate_exact.

(** C69: updates made while a lookup of the same session is in progress are lost: the lookup
    restores what it had read. *)
Theorem C69_lost_update_refuted : ∀ max_sessions timeout m t v id s now h1 info now' h2,
  calls m !! t = None → sessions m !! id = Some s → s_auth s = false → GetWrite t ∉ h1 ++ Update id (set_auth info) now' :: h2 →
  let m' := sruns max_sessions timeout m (GetRead t v id now :: (h1 ++ Update id (set_auth info) now' :: h2) ++ [GetWrite t]) in
  sessions m' !! id = Some (touch now s) ∧ s_auth <$> sessions m' !! id = Some false.
Proof. intros M T m t v id s now h1 info now' h2 Hc Hs Ha Hn. cbn zeta. rewrite (written_back M T m t v id s _ now) by done. split; [done|]. cbn. by rewrite Ha. Qed.
Print Assumptions C69_lost_update_refuted.

(** C70: the session id taken from a cookie header is the value of the first cookie named
    mcp-session-id, whatever other cookies say; without one it is that of the session header. *)
Theorem C70_cookie : ∀ headers cs, cs ≠ [] → Forall cookie_ok cs →
  match headers !! "cookie"%string with Some v => Some v | None => headers !! "Cookie"%string end = Some (join_with (lit ";") (render_cookie <$> cs)) →
  extract_session_id headers =
  match first_value (lit "mcp-session-id") cs with
  | Some v => Some v
  | None => match headers !! "X-Session-ID"%string with
            | Some v => Some v | None => headers !! "x-session-id"%string end
  end.
Proof. exact extract_spec. Qed.
Print Assumptions C70_cookie.
(** Every header value consists of such cookies, so this covers them all. *)
Theorem C70_every_header : ∀ h, ∃ cs, cs ≠ [] ∧ Forall cookie_ok cs ∧ h = join_with (lit ";") (render_cookie <$> cs).
Proof. exact header_cookies. Qed.
Print Assumptions C70_every_header.
Theorem C70_no_cookie : ∀ headers : gmap string text, headers !! "cookie"%string = None → headers !! "Cookie"%string = None →
  extract_session_id headers = match headers !! "X-Session-ID"%string with Some v => Some v | None => headers !! "x-session-id"%string end.
Proof. intros headers H1 H2. unfold extract_session_id. by rewrite H1, H2. Qed.
Print Assumptions C70_no_cookie.

(** C70 fails for a configured cookie name: only the fixed name is ever looked for. *)
Theorem C70_configured_name_refuted : ∀ (name value : text) (headers : gmap string text),
  name ≠ lit "mcp-session-id" → cookie_ok (Named [] name value []) →
  headers = {[ "cookie"%string := render_cookie (Named [] name value []) ]} →
  extract_session_id headers = None.
Proof.
  intros name value headers Hne Hok ->.
  rewrite (extract_spec _ [Named [] name value []]); [|done|by constructor|by rewrite lookup_singleton].
  cbn [first_value]. rewrite decide_False by done. done.
Qed.
Print Assumptions C70_configured_name_refuted.

(** Non-vacuity. *)
Example C11_concurrent_example :
  size (sessions (sruns 1 10 mgr0
    [CreateCheck 0 0; CreateCheck 1 0; CreateInsert 0 "a" 0; CreateInsert 1 "b" 0])) = 2.
Proof. vm_compute. reflexivity. Qed.
Example C12_example :
  let m := sruns 10 100 mgr0
    [CreateCheck 0 7; CreateInsert 0 "a" 0; GetRead 1 false "a" 1; Destroy "a"] in
  sessions m !! "a"%string = None ∧
  sessions (sruns 10 100 m [GetWrite 1]) !! "a"%string = Some (MkSession "a" 0 1 100 7 0 false None).
Proof. vm_compute. done. Qed.
Example C69_example :
  let m := sruns 10 100 mgr0
    [CreateCheck 0 7; CreateInsert 0 "a" 0; GetRead 1 false "a" 1; Update "a" (set_auth "alice") 2] in
  (s_auth <$> sessions m !! "a"%string) = Some true ∧
  (s_auth <$> sessions (sruns 10 100 m [GetWrite 1]) !! "a"%string) = Some false.
Proof. vm_compute. done. Qed.
Example C11_example :
  let h := [CreateCheck 0 7; CreateInsert 0 "a" 0; CreateCheck 0 7; CreateInsert 0 "b" 5; Destroy "a";
            CreateCheck 0 7; CreateInsert 0 "c" 6; CreateCheck 0 8] in
  size (sessions (sruns 2 100 mgr0 h)) = 2 ∧
  (sexec 2 100 (sruns 2 100 mgr0 h) (CreateCheck 0 8)).2 = RLimit ∧
  (validate_session 2 100 (sruns 2 100 mgr0 h) "b" 105 105).2 = RSession (MkSession "b" 5 105 105 7 0 false None) ∧
  (validate_session 2 100 (sruns 2 100 mgr0 h) "b" 106 106).2 = RExpired.
Proof. vm_compute. done. Qed.
Example C70_example :
  extract_session_id {[ "cookie"%string := lit " theme=dark; mcp-session-id=a=b ;mcp-session-id=z" ]} = Some (lit "a=b").
Proof. vm_compute. reflexivity. Qed.
