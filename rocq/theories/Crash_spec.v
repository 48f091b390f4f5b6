(** Vocabulary for interrupted runs. *)
From Coq Require Import Ascii String.
From Verif Require Import Base Problem_model Validate_model Crash_model.

(** [t] is a first part of [u]. *)
Definition cut (t u : text) : Prop := exists rest, u = t ++ rest.
(** A program that has made the requests [done], no more, and is stopped there, may leave the text [t] in
    the file [f]: what has been flushed, and a first part of the rest. *)
Definition left_after (fs : text -> option text) (done : list request) (f t : text) : Prop :=
  exists h p, effects done (disk_of fs) f = Some h /\ cut p (h_waiting h) /\ t = h_safe h ++ p.
(** A program that makes the requests [qs] may leave [t] in [f] when it is stopped at some moment. *)
Definition may_leave (fs : text -> option text) (qs : list request) (f t : text) : Prop :=
  exists done later, qs = done ++ later /\ left_after fs done f t.
(** [t] is the file [out] without the value and the end of line of its last line, the one of [nm]. *)
Definition without_last_value (out t nm : text) : Prop :=
  exists before b, out = before ++ nm ++ str "=" ++ str (if b : bool then "1" else "0") ++ [ascii_of_nat 10] /\ t = before ++ nm ++ str "=".
