(** Vocabulary for solution files. *)
From Coq Require Import Ascii.
From Verif Require Import Base Problem_model.

Definition newline : ascii := ascii_of_nat 10.
Definition blank (c : ascii) : Prop := In (nat_of_ascii c) [32; 9; 10; 11; 12; 13]%nat.
(** A line of comment: blanks, then a backslash; no newline. *)
Definition comment_line (l : text) : Prop :=
  ~ In newline l /\ exists b r, l = b ++ ascii_of_nat 92 :: r /\ Forall blank b.
(** A name that can be written in a solution file. *)
Definition writable_name (nm : text) : Prop :=
  ~ In newline nm /\ ~ In (ascii_of_nat 61) nm /\ ~ exists b r, nm = b ++ ascii_of_nat 92 :: r /\ Forall blank b.
