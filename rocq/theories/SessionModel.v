(** Model of /repo/src/shared/session.rs.  Definitions only.  The [DashMap] is a finite map whose
    single operations are atomic; each call is split into its map operations, so that other calls
    may run in between.  [Utc::now()] and [Uuid::new_v4()] are inputs. *)
From stdpp Require Import gmap strings list.
From Verif Require Import ListLib TextLib.

(** [Session], session.rs:42-66 ([client_info] and [data] are opaque numbers). *)
Record session := MkSession {
  s_id : string; s_created : Z; s_last : Z; s_expires : Z;
  s_client : nat; s_data : nat; s_auth : bool; s_auth_info : option string
}.
Definition touch (now : Z) (s : session) : session :=
  MkSession (s_id s) (s_created s) now (s_expires s) (s_client s) (s_data s) (s_auth s) (s_auth_info s).

(** The session built by [create_session], session.rs:150-160. *)
Definition fresh_session (id : string) (now timeout : Z) (client : nat) : session :=
  MkSession id now now (now + timeout) client 0 false None.

(** The update made by [authenticate_session], session.rs:225-230. *)
Definition set_auth (info : string) (s : session) : session :=
  MkSession (s_id s) (s_created s) (s_last s) (s_expires s) (s_client s) (s_data s) true (Some info).

(** Calls in progress.
    [PCreate c]: create_session passed the limit check (session.rs:143-148), not yet inserted.
    [PGet v id s]: get_session has read and released the entry (175-182) but not yet written back;
    [v] tells whether the caller is validate_session.
    [PCheck id s]: validate_session holds the value returned by get_session (192-194).
    [PClean ids]: cleanup_expired has collected these ids (254-260). *)
Inductive pc :=
| PCreate (client : nat)
| PGet (validating : bool) (id : string) (s : session)
| PCheck (id : string) (s : session)
| PClean (ids : list string).

Record smgr := MkMgr { sessions : gmap string session; calls : gmap nat pc }.
Definition mgr0 : smgr := MkMgr ∅ ∅.

(** Atomic steps; [t] names the call (src/shared/session.rs 141-285, cut at each access of the map) *)
Inductive sstep_op :=
| CreateCheck (t : nat) (client : nat)              (* session.rs:143-148 *)
| CreateInsert (t : nat) (id : string) (now : Z)    (* 150-162 *)
| GetRead (t : nat) (validating : bool) (id : string) (now : Z)  (* 175-182 *)
| GetWrite (t : nat)                                (* 183-184 *)
| ValidateEnd (t : nat) (now : Z)                   (* 197-205 *)
| Update (id : string) (f : session → session) (now : Z)   (* 209-222, under the entry's lock *)
| Destroy (id : string)                             (* 233-250 *)
| CleanCollect (t : nat) (now : Z)                  (* 254-260 *)
| CleanRemove (t : nat).                            (* 262-271, one id *)

(** What a step returns to its caller (src/shared/session.rs 141-285) *)
Inductive sresult :=
| RNone                       (* the call goes on, or has no result *)
| RSession (s : session)      (* Ok(session) / Some(session) *)
| RLimit                      (* "Maximum session limit reached" *)
| RInvalid                    (* None / "Invalid session ID" / "Session not found" *)
| RExpired                    (* "Session expired" *)
| ROk.

(** [entry.expires_at < now], session.rs:258. *)
Definition is_old (now : Z) (s : option session) : bool :=
  match s with Some s => bool_decide (s_expires s < now)%Z | None => false end.

(** [DashMap::len] is the number of entries (src/shared/session.rs 141-285) *)
Definition sexec (max_sessions : nat) (timeout : Z) (m : smgr) (o : sstep_op) : smgr * sresult :=
  match o with
  | CreateCheck t c =>
      match calls m !! t with
      | Some _ => (m, RNone)
      | None =>
          if decide (max_sessions ≤ size (sessions m)) then (m, RLimit)
          else (MkMgr (sessions m) (<[t := PCreate c]> (calls m)), RNone)
      end
  | CreateInsert t id now =>
      match calls m !! t with
      | Some (PCreate c) =>
          let s := fresh_session id now timeout c in
          (MkMgr (<[id := s]> (sessions m)) (delete t (calls m)), RSession s)
      | _ => (m, RNone)
      end
  | GetRead t v id now =>
      match calls m !! t with
      | Some _ => (m, RNone)
      | None =>
          match sessions m !! id with
          | Some s => (MkMgr (sessions m) (<[t := PGet v id (touch now s)]> (calls m)), RNone)
          | None => (m, RInvalid)
          end
      end
  | GetWrite t =>
      match calls m !! t with
      | Some (PGet false id s) => (MkMgr (<[id := s]> (sessions m)) (delete t (calls m)), RSession s)
      | Some (PGet true id s) =>
          (MkMgr (<[id := s]> (sessions m)) (<[t := PCheck id s]> (calls m)), RNone)
      | _ => (m, RNone)
      end
  | ValidateEnd t now =>
      match calls m !! t with
      | Some (PCheck id s) =>
          if decide (s_expires s < now)%Z then
            (* destroy_session(session_id)? propagates "Session not found" *)
            (MkMgr (delete id (sessions m)) (delete t (calls m)),
             match sessions m !! id with Some _ => RExpired | None => RInvalid end)
          else (MkMgr (sessions m) (delete t (calls m)), RSession s)
      | _ => (m, RNone)
      end
  | Update id f now =>
      match sessions m !! id with
      | Some s => (MkMgr (<[id := touch now (f s)]> (sessions m)) (calls m), ROk)
      | None => (m, RInvalid)
      end
  | Destroy id =>
      match sessions m !! id with
      | Some _ => (MkMgr (delete id (sessions m)) (calls m), ROk)
      | None => (m, RInvalid)
      end
  | CleanCollect t now =>
      match calls m !! t with
      | Some _ => (m, RNone)
      | None =>
          let ids := (map_to_list (sessions m)).*1 in
          let old := filter (λ id, is_old now (sessions m !! id) = true) ids in
          (MkMgr (sessions m) (<[t := PClean old]> (calls m)), RNone)
      end
  | CleanRemove t =>
      match calls m !! t with
      | Some (PClean (id :: ids)) =>
          (MkMgr (delete id (sessions m)) (<[t := PClean ids]> (calls m)), RNone)
      | Some (PClean []) => (MkMgr (sessions m) (delete t (calls m)), ROk)
      | _ => (m, RNone)
      end
  end.

(** No code of its own: runs histories of src/shared/session.rs 141-285 *)
Definition sruns (max_sessions : nat) (timeout : Z) (m : smgr) (h : list sstep_op) : smgr :=
  fold_left (λ m o, (sexec max_sessions timeout m o).1) h m.

(** ** Whole calls without interference (call name 0) (src/shared/session.rs 141-171, 174-188, 191-206, 253-272) *)
Definition create_session max_sessions timeout (m : smgr) (client : nat) (id : string) (now : Z)
  : smgr * sresult :=
  match sexec max_sessions timeout m (CreateCheck 0 client) with
  | (m1, RLimit) => (m1, RLimit)
  | (m1, _) => sexec max_sessions timeout m1 (CreateInsert 0 id now)
  end.
Definition get_session max_sessions timeout (m : smgr) (id : string) (now : Z) : smgr * sresult :=
  match sexec max_sessions timeout m (GetRead 0 false id now) with
  | (m1, RInvalid) => (m1, RInvalid)
  | (m1, _) => sexec max_sessions timeout m1 (GetWrite 0)
  end.
Definition validate_session max_sessions timeout (m : smgr) (id : string) (now now' : Z) : smgr * sresult :=
  match sexec max_sessions timeout m (GetRead 0 true id now) with
  | (m1, RInvalid) => (m1, RInvalid)
  | (m1, _) => let m2 := (sexec max_sessions timeout m1 (GetWrite 0)).1 in
               sexec max_sessions timeout m2 (ValidateEnd 0 now')
  end.

Fixpoint clean_removes max_sessions timeout (m : smgr) (n : nat) : smgr :=
  match n with
  | 0 => m
  | S n => clean_removes max_sessions timeout (sexec max_sessions timeout m (CleanRemove 0)).1 n
  end.
Definition cleanup_expired max_sessions timeout (m : smgr) (now : Z) : smgr :=
  let m1 := (sexec max_sessions timeout m (CleanCollect 0 now)).1 in
  match calls m1 !! 0 with
  | Some (PClean ids) => clean_removes max_sessions timeout m1 (S (length ids))
  | _ => m1
  end.

(** ** [extract_session_id], session.rs:308-324, on texts as lists of code points. *)
(** char::is_whitespace, as str::trim uses it (std, used at src/shared/session.rs 312) *)
Definition is_space (c : N) : bool :=
  ((9 <=? c) && (c <=? 13) || (c =? 32) || (c =? 133) || (c =? 160) || (c =? 5760) || (8192 <=? c) && (c <=? 8202)
   || (c =? 8232) || (c =? 8233) || (c =? 8239) || (c =? 8287) || (c =? 12288))%N.
Notation text := (list N) (only parsing).
Definition semicolon : N := 59%N.
Definition equals : N := 61%N.

(** The loop over cookies, session.rs:311-316. *)
Fixpoint find_cookie (cs : list text) : option text :=
  match cs with
  | [] => None
  | c :: cs =>
      match split_once equals (trim_by is_space c) with
      | Some (n, v) => if decide (n = lit "mcp-session-id") then Some v else find_cookie cs
      | None => find_cookie cs
      end
  end.

(** Headers are a map from (case-sensitive) names to values (src/shared/session.rs 308-335) *)
Definition extract_session_id (headers : gmap string text) : option text :=
  let cookie := match headers !! "cookie"%string with
                | Some v => Some v | None => headers !! "Cookie"%string end in
  match (c ← cookie; find_cookie (split_on semicolon c)) with
  | Some v => Some v
  | None => match headers !! "X-Session-ID"%string with
            | Some v => Some v | None => headers !! "x-session-id"%string end
  end.

(** [SessionMiddleware::process], session.rs:346-362: what the handler receives. *)
Definition middleware_session max_sessions timeout (m : smgr) (sid : option string) (now : Z)
  : smgr * option session :=
  match sid with
  | Some id => match get_session max_sessions timeout m id now with
               | (m', RSession s) => (m', Some s)
               | (m', _) => (m', None)
               end
  | None => (m, None)
  end.
