(** The characters with the Unicode property White_Space, one by one. *)
From stdpp Require Import list.
Definition white_space : list N := [9; 10; 11; 12; 13; 32; 133; 160; 5760; 8192; 8193; 8194; 8195; 8196; 8197; 8198; 8199; 8200; 8201; 8202; 8232; 8233; 8239; 8287; 12288]%N.
Definition blank (t : list N) : Prop := ∀ c, c ∈ t → c ∈ white_space.
(** The words of a text: its pieces without white space, with white space around and between them. *)
Inductive worded : list N → list (list N) → Prop :=
| worded_none t : blank t → worded t []
| worded_one a w b ws : blank a → w ≠ [] → (∀ c, c ∈ w → c ∉ white_space) → (∀ c, head b = Some c → c ∈ white_space) → worded b ws → worded (a ++ w ++ b) (w :: ws).
