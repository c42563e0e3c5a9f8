(** The stdio transport when its input arrives in pieces and the caller of receive may give up waiting (a timeout or a select
    drops the future): src/shared/stdio.rs 83-91, 166-214.  Definitions only.  Left out: the end of the input (see StdioModel.v). *)
From stdpp Require Import sets list strings.
From Verif Require Import ListLib TextLib Utf8Lib JsonLib SerdeLib TypesModel RpcModel StdioModel.
Local Open Scope N_scope.

(** Where a call of receive waits, and what it has taken from the input so far: in read_headers at line 175, with the content
    length found (169) and the part of a line that tokio's read_line has taken; in read_message_body at 209, with the part of
    the body that read_exact has taken.  Both hold these bytes in the future: they go with it. *)
Inductive progress := PHead (len : option N) (line : list N) | PBody (n : N) (got : list N).
(** One more byte: read_headers, 172-203, read_message_body, 205-214, and parse_message at 90 *)
Definition result_of (payload : list N) : received := match parse_message payload with Some m => RMsg m | None => RInvalid end.
Definition step_byte (p : progress) (c : N) : progress + received :=
  match p with
  | PHead len line =>
    if c =? 10 then
      match utf8_decode (line ++ [c]) with
      | None => inr RIo
      | Some t =>
        match trim t with
        | [] => match len with
                | None => inr RInvalid
                | Some n => if isize_max <? n then inr RPanic else if n =? 0 then inr (result_of []) else inl (PBody n [])
                end
        | l => inl (PHead (match parse_content_length l with Some n => Some n | None => len end) [])
        end
      end
    else inl (PHead len (line ++ [c]))
  | PBody n got => if N.of_nat (S (length got)) =? n then inr (result_of (got ++ [c])) else inl (PBody n (got ++ [c]))
  end.
(** Polling takes what has arrived until there is a result, or all of it (BufReader, stdio.rs 32, 175, 209) *)
Fixpoint eat (p : progress) (inp : list N) : (progress + received) * list N :=
  match inp with
  | [] => (inl p, [])
  | c :: inp => match step_byte p c with inl p => eat p inp | inr r => (inr r, inp) end
  end.
(** [d_in]: what has arrived and was not taken; [d_cur]: the call of receive in progress *)
Record dio := MkDio { d_in : list N; d_cur : option progress }.
(** Bytes arrive; the caller polls its call of receive (stdio.rs 83), a new one if there is none; the caller drops it *)
Inductive dop := DArrive (bs : list N) | DPoll | DDrop.
Definition d_step (s : dio) (o : dop) : option received * dio :=
  match o with
  | DArrive bs => (None, MkDio (d_in s ++ bs) (d_cur s))
  | DPoll =>
    match eat (default (PHead None []) (d_cur s)) (d_in s) with
    | (inl p, rest) => (None, MkDio rest (Some p))
    | (inr r, rest) => (Some r, MkDio rest None)
    end
  | DDrop => (None, MkDio (d_in s) None)
  end.
(** Histories (they drive stdio.rs 83-91): what the calls returned, and the state *)
Fixpoint d_run (s : dio) (os : list dop) : list received * dio :=
  match os with
  | [] => ([], s)
  | o :: os => let '(r, s) := d_step s o in let '(rs, s) := d_run s os in (option_list r ++ rs, s)
  end.
Definition d_new : dio := MkDio [] None.
