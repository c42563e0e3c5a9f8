(** The in-memory OAuth 2.0 provider: src/server/auth/oauth2.rs.  Definitions only. *)
From stdpp Require Import gmap strings list.
From Verif Require Import ListLib TextLib SerdeLib.
Local Open Scope Z_scope.

(** AuthorizationCode 79-103, TokenInfo 133-151 (without the keys they are stored under), TokenRequest
    251-290 (the fields that are looked at), OAuthClient 49-75 *)
Record acode := MkCode { a_client : text; a_user : text; a_redirect : text; a_scopes : list text; a_challenge : option text; a_method : option text; a_exp : Z }.
Record tinfo := MkInfo { i_client : text; i_user : text; i_scopes : list text; i_exp : Z }.
Inductive grant := GCode | GRefresh | GClient | GPassword.
Record treq := MkReq { q_grant : grant; q_code : option text; q_redirect : option text; q_client : option text; q_secret : option text; q_verifier : option text }.
Inductive rtype := TCode | TToken.
Record oclient := MkClient { o_id : text; o_secret : option text; o_redirects : list text; o_types : list rtype; o_scopes : list text }.
Global Instance rtype_eq_dec : EqDecision rtype. Proof. solve_decision. Defined.

(** *** Clients *)
(** register_client, 447-461; [g1], [g2] are what generate_token returns *)
Definition register_client (c : oclient) (g1 g2 : text) (m : gmap text oclient) : gmap text oclient * oclient :=
  let id := match o_id c with [] => g1 | _ => o_id c end in
  let c := MkClient id (Some (default g2 (o_secret c))) (o_redirects c) (o_types c) (o_scopes c) in
  (<[id := c]> m, c).
(** str::split_whitespace, with char::is_whitespace (std, used at src/server/auth/oauth2.rs 492) *)
Definition ws (c : N) : bool :=
  ((9 <=? c) && (c <=? 13) || (c =? 32) || (c =? 133) || (c =? 160) || (c =? 5760) || (8192 <=? c) && (c <=? 8202)
   || (c =? 8232) || (c =? 8233) || (c =? 8239) || (c =? 8287) || (c =? 12288))%N.
Fixpoint words (cur s : text) : list text :=
  match s with
  | [] => match cur with [] => [] | _ => [cur] end
  | c :: s => if ws c then match cur with [] => words [] s | _ => cur :: words [] s end else words (cur ++ [c]) s
  end.
Definition supported_scopes : list text := [lit "read"; lit "write"].   (* new, 400-411 *)
(** validate_authorization, 468-500 *)
Definition validate_authorization (m : gmap text oclient) (rt : rtype) (id redirect scope : text) : bool :=
  match m !! id with
  | None => false
  | Some c => bool_decide (redirect ∈ o_redirects c) && bool_decide (rt ∈ o_types c) && forallb (λ s, bool_decide (s ∈ supported_scopes)) (words [] scope)
  end.

(** *** Codes and tokens, with the locks.  A call runs in steps: each step waits for one lock, works
    under it, and keeps the locks its guards still hold.  The clock is read in the step. *)
(** oauth2.rs 377-386; call and oresult: the methods at 502-706 *)
Inductive lock := LCodes | LTokens | LRefresh.
Inductive mode := MRead | MWrite.
Global Instance lock_eq_dec : EqDecision lock. Proof. solve_decision. Defined.
Global Instance mode_eq_dec : EqDecision mode. Proof. solve_decision. Defined.
Inductive call :=
| CCode (client user redirect : text) (scopes : list text) (challenge method : option text)  (* create_authorization_code *)
| CExchange (q : treq)
| CCreate (client user : text) (scopes : list text)                                        (* create_access_token *)
| CRefresh (rt : text) | CRevoke (t : text) | CValidate (t : text).
Inductive oresult := RCode (code : text) | RToken (tok rt : text) (scopes : list text) | ROk | RInfo (i : tinfo) | RErr (why : string).
(** Where a call is: what it waits for and what it holds (see [wants], [holds]) (oauth2.rs 502-706, cut at each lock) *)
Inductive pc :=
| PCode (code : text) (a : acode)                                  (* 525: waits for codes *)
| PExchange (q : treq) (code : text)                               (* 546: waits for codes *)
| PCreate (codes : bool) (i : tinfo) (tok rt : text)               (* 625: waits for tokens; [codes]: holds codes *)
| PCreate2 (codes : bool) (i : tinfo) (tok rt : text)              (* 629: holds tokens, waits for refresh_tokens *)
| PRefresh (rt : text)                                             (* 644: waits for refresh_tokens (read) *)
| PRefresh2 (rt old : text)                                        (* 651: holds refresh_tokens (read), waits for tokens (read) *)
| PRefresh3 (rt old : text) (i : tinfo)                            (* 664: waits for tokens *)
| PRefresh4 (rt : text) (i : tinfo)                                (* 668: waits for refresh_tokens *)
| PRevoke (t : text)                                               (* 678: waits for tokens *)
| PRevoke2 (t : text)                                              (* 685: waits for refresh_tokens *)
| PRevoke3 (a : text)                                              (* 687: holds refresh_tokens, waits for tokens *)
| PValidate (t : text)                                             (* 695: waits for tokens (read) *)
| PDone (r : oresult).
Definition wants (p : pc) : option (lock * mode) :=
  match p with
  | PCode _ _ | PExchange _ _ => Some (LCodes, MWrite)
  | PCreate _ _ _ _ | PRefresh3 _ _ _ | PRevoke _ | PRevoke3 _ => Some (LTokens, MWrite)
  | PCreate2 _ _ _ _ | PRefresh4 _ _ | PRevoke2 _ => Some (LRefresh, MWrite)
  | PRefresh _ => Some (LRefresh, MRead)
  | PRefresh2 _ _ | PValidate _ => Some (LTokens, MRead)
  | PDone _ => None
  end.
Definition holds (p : pc) : list (lock * mode) :=
  match p with
  | PCreate true _ _ _ => [(LCodes, MWrite)]
  | PCreate2 b _ _ _ => (if b then [(LCodes, MWrite)] else []) ++ [(LTokens, MWrite)]
  | PRefresh2 _ _ => [(LRefresh, MRead)]
  | PRevoke3 _ => [(LRefresh, MWrite)]
  | _ => []
  end.
(** The maps of the provider, and for each what was ever put into it; [ob_taken] are the codes that
    passed the checks of exchange_code: who, which, when. *)
(** oauth2.rs 380-386, 404-406 *)
Record maps := MkMaps { m_codes : gmap text acode; m_tokens : gmap text tinfo; m_refresh : gmap text text;
  m_issued : gmap text acode; m_born : gmap text tinfo; m_paired : gmap text text; m_taken : list (nat * text * Z) }.
Definition maps_new : maps := MkMaps ∅ ∅ ∅ ∅ ∅ ∅ [].
Section oauth.
  Context (s256 : text → text).
  (** verify_pkce, 427-442; [s256] is base64url(sha256 _) *)
  Definition verify_pkce (verifier challenge method : text) : bool :=
    if decide (method = lit "plain") then bool_decide (verifier = challenge)
    else if decide (method = lit "S256") then bool_decide (s256 verifier = challenge) else false.
  (** the checks of exchange_code, 551-598 *)
  Definition checks (q : treq) (a : acode) (now : Z) : option string :=
    if a_exp a <? now then Some "Code expired"
    else match q_client q with
    | None => Some "Missing client_id"
    | Some c => if decide (a_client a = c) then
      match q_redirect q with
      | None => Some "Missing redirect_uri"
      | Some r => if decide (a_redirect a = r) then
        match a_challenge a with
        | None => None
        | Some ch => match q_verifier q with
                     | None => Some "Missing code_verifier"
                     | Some v => if verify_pkce v ch (default (lit "plain") (a_method a)) then None else Some "Invalid code_verifier"
                     end
        end else Some "Invalid redirect_uri"
      end else Some "Invalid client_id"
    end.
  Definition code_expiration : Z := 600.     (* new, 400-411 *)
  Definition token_expiration : Z := 3600.
  (** The beginning of a call, up to its first lock; [g1], [g2] are generated (oauth2.rs 502-706) *)
  Definition begin (c : call) (g1 g2 : text) (now : Z) : pc :=
    match c with
    | CCode cl u r sc ch me => PCode g1 (MkCode cl u r sc ch me (now + code_expiration))      (* 511-523 *)
    | CExchange q =>                                                                           (* 533-544 *)
      match q_grant q with
      | GCode => match q_code q with Some c => PExchange q c | None => PDone (RErr "Missing code") end
      | _ => PDone (RErr "Invalid grant_type")
      end
    | CCreate cl u sc => PCreate false (MkInfo cl u sc (now + token_expiration)) g1 g2         (* 611-623 *)
    | CRefresh rt => PRefresh rt
    | CRevoke t => PRevoke t
    | CValidate t => PValidate t
    end.
  (** One step of the call of thread [n] that got the lock it wants (oauth2.rs 502-706) *)
  Definition advance (n : nat) (now : Z) (g1 g2 : text) (p : pc) (m : maps) : maps * pc :=
    let '(MkMaps co to re is bo pa ta) := m in
    match p with
    | PCode code a => (MkMaps (<[code := a]> co) to re (<[code := a]> is) bo pa ta, PDone (RCode code))
    | PExchange q code =>
      match co !! code with
      | None => (m, PDone (RErr "Invalid code"))
      | Some a =>
        match checks q a now with
        | Some e => (MkMaps (delete code co) to re is bo pa ta, PDone (RErr e))
        | None => (MkMaps (delete code co) to re is bo pa (ta ++ [(n, code, now)]), PCreate true (MkInfo (a_client a) (a_user a) (a_scopes a) (now + token_expiration)) g1 g2)
        end
      end
    | PCreate b i tok rt => (MkMaps co (<[tok := i]> to) re is (<[tok := i]> bo) pa ta, PCreate2 b i tok rt)
    | PCreate2 b i tok rt => (MkMaps co to (<[rt := tok]> re) is bo (<[rt := tok]> pa) ta, PDone (RToken tok rt (i_scopes i)))
    | PRefresh rt => match re !! rt with Some old => (m, PRefresh2 rt old) | None => (m, PDone (RErr "Invalid refresh_token")) end
    | PRefresh2 rt old => match to !! old with Some i => (m, PRefresh3 rt old i) | None => (m, PDone (RErr "Invalid refresh_token")) end
    | PRefresh3 rt old i => (MkMaps co (delete old to) re is bo pa ta, PRefresh4 rt i)
    | PRefresh4 rt i => (MkMaps co to (delete rt re) is bo pa ta, PCreate false (MkInfo (i_client i) (i_user i) (i_scopes i) (now + token_expiration)) g1 g2)
    | PRevoke t => match to !! t with Some _ => (MkMaps co (delete t to) re is bo pa ta, PDone ROk) | None => (m, PRevoke2 t) end
    | PRevoke2 t => match re !! t with Some a => (MkMaps co to (delete t re) is bo pa ta, PRevoke3 a) | None => (m, PDone ROk) end
    | PRevoke3 a => (MkMaps co (delete a to) re is bo pa ta, PDone ROk)
    | PValidate t =>
      match to !! t with
      | None => (m, PDone (RErr "Invalid token"))
      | Some i => if i_exp i <? now then (m, PDone (RErr "Token expired")) else (m, PDone (RInfo i))
      end
    | PDone r => (m, p)
    end.
  (** *** The provider with its calls (oauth2.rs 372-397) *)
  Record provider := MkProvider { pv_maps : maps; pv_calls : list (call * pc) }.
  Definition provider_new : provider := MkProvider maps_new [].
  (** a lock is granted unless another call holds it exclusively, or at all if asked for exclusively *)
  (** tokio RwLock, used at oauth2.rs 447-706; oop, o_step and o_run drive these methods *)
  Definition conflicts (l : lock) (m : mode) (h : lock * mode) : bool :=
    bool_decide (h.1 = l) && match m, h.2 with MRead, MRead => false | _, _ => true end.
  Definition available (cs : list (call * pc)) (n : nat) (l : lock) (m : mode) : bool :=
    forallb (λ x, forallb (λ h, negb (conflicts l m h)) (holds x.2)) (delete n cs).
  Inductive oop := OStart (c : call) (g1 g2 : text) (now : Z) | ORun (n : nat) (now : Z) (g1 g2 : text).
  Definition o_step (s : provider) (o : oop) : provider :=
    match o with
    | OStart c g1 g2 now => MkProvider (pv_maps s) (pv_calls s ++ [(c, begin c g1 g2 now)])
    | ORun n now g1 g2 =>
      match pv_calls s !! n with
      | Some (c, p) =>
        match wants p with
        | Some (l, m) =>
          if available (pv_calls s) n l m
          then let '(mp, p') := advance n now g1 g2 p (pv_maps s) in MkProvider mp (<[n := (c, p')]> (pv_calls s))
          else s
        | None => s
        end
      | None => s
      end
    end.
  Definition o_run (os : list oop) : provider := fold_left o_step os provider_new.
End oauth.
