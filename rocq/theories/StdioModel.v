(** The stdio transport, src/shared/stdio.rs.  stdin is the bytes that will ever arrive (its end is
    EOF) and stdout the bytes written; reads and writes of the operating system do not fail.
    Running out of memory is not modelled, but asking Vec for more than isize::MAX bytes is a panic. *)
From stdpp Require Import sets list strings.
From Verif Require Import ListLib TextLib Utf8Lib JsonLib SerdeLib TypesModel RpcModel.
Local Open Scope N_scope.

(** char::is_whitespace (Unicode White_Space), used by str::trim (std, used at src/shared/stdio.rs 61, 187) *)
Definition is_white (c : N) : bool :=
  ((9 <=? c) && (c <=? 13)) || (c =? 32) || (c =? 133) || (c =? 160) || (c =? 5760) || ((8192 <=? c) && (c <=? 8202))
  || (c =? 8232) || (c =? 8233) || (c =? 8239) || (c =? 8287) || (c =? 12288).
Definition trim (t : list N) : list N := trim_by is_white t.
(** CONTENT_LENGTH_HEADER, stdio.rs:13 *)
Definition header_name : list N := lit "Content-Length: ".
(** parse_content_length, stdio.rs:59-62 (usize is 64 bits) *)
Definition parse_content_length (line : list N) : option N :=
  match strip header_name line with
  | Some content => parse_unsigned u64_max (trim content)
  | None => None
  end.
(** write_message, stdio.rs:142-163 *)
Definition crlf2 : list N := [13; 10; 13; 10].
Definition frame (payload : list N) : list N := header_name ++ show_N (N.of_nat (length payload)) ++ crlf2 ++ payload.

(** AsyncBufReadExt::read_line: the bytes up to and including the next line feed *)
(** tokio, used at src/shared/stdio.rs 175; headers: the results of 166-203 *)
Fixpoint read_line (inp : list N) : list N * list N :=
  match inp with
  | [] => ([], [])
  | c :: inp => if c =? 10 then ([c], inp) else let '(l, r) := read_line inp in (c :: l, r)
  end.
Inductive headers := HLength (n : N) | HMissing | HEof | HNotText.
(** read_headers, stdio.rs:166-203 (a line that is not UTF-8 is an I/O error; it has been consumed) *)
Fixpoint read_headers (fuel : nat) (len : option N) (inp : list N) : headers * list N :=
  match fuel with
  | O => (HEof, inp)
  | S fuel =>
    match inp with
    | [] => (HEof, [])
    | _ =>
      let '(l, r) := read_line inp in
      match utf8_decode l with
      | None => (HNotText, r)
      | Some t =>
        match trim t with
        | [] => (match len with Some n => HLength n | None => HMissing end, r)
        | line => read_headers fuel (match parse_content_length line with Some n => Some n | None => len end) r
        end
      end
    end
  end.

Record stdio := { sd_in : list N; sd_out : list N; sd_closed : bool }.
Inductive received := RMsg (m : message) | RInvalid | RClosed | RIo | RPanic.
Definition isize_max : N := 9223372036854775807.
(** receive, stdio.rs:83-91; read_message_body, stdio.rs:205-214 *)
Definition receive (s : stdio) : received * stdio :=
  if sd_closed s then (RClosed, s) else
  let '(h, r) := read_headers (S (length (sd_in s))) None (sd_in s) in
  match h with
  | HEof => (RClosed, {| sd_in := r; sd_out := sd_out s; sd_closed := true |})
  | HMissing => (RInvalid, {| sd_in := r; sd_out := sd_out s; sd_closed := false |})
  | HNotText => (RIo, {| sd_in := r; sd_out := sd_out s; sd_closed := false |})
  | HLength n =>
    if isize_max <? n then (RPanic, {| sd_in := r; sd_out := sd_out s; sd_closed := false |})
    else if N.of_nat (length r) <? n then (RIo, {| sd_in := []; sd_out := sd_out s; sd_closed := false |})
    else (match parse_message (take (N.to_nat n) r) with Some m => RMsg m | None => RInvalid end,
          {| sd_in := drop (N.to_nat n) r; sd_out := sd_out s; sd_closed := false |})
  end.
(** send, stdio.rs:73-81; None is Err(ConnectionClosed).  Serialising a message to a Vec does not fail. *)
Definition send (m : message) (s : stdio) : option unit * stdio :=
  if sd_closed s then (None, s)
  else (Some tt, {| sd_in := sd_in s; sd_out := sd_out s ++ frame (serialize_message m); sd_closed := false |}).
(** close, stdio.rs:93-104 *)
Definition close (s : stdio) : stdio := {| sd_in := sd_in s; sd_out := sd_out s; sd_closed := true |}.
(** new, stdio.rs:45-51 *)
Definition open_on (inp : list N) : stdio := {| sd_in := inp; sd_out := []; sd_closed := false |}.

(** *** Histories (drives src/shared/stdio.rs 73-100) *)
Inductive sop := Send (m : message) | Receive | Close.
Inductive sres := Sent | SendClosed | Got (r : received) | ClosedOk.
Definition sstep (s : stdio) (o : sop) : sres * stdio :=
  match o with
  | Send m => let '(r, s) := send m s in (match r with Some _ => Sent | None => SendClosed end, s)
  | Receive => let '(r, s) := receive s in (Got r, s)
  | Close => (ClosedOk, close s)
  end.
Fixpoint srun (s : stdio) (os : list sop) : list sres * stdio :=
  match os with
  | [] => ([], s)
  | o :: os => let '(r, s) := sstep s o in let '(rs, s) := srun s os in (r :: rs, s)
  end.
