(** What a user expects of the verbosity. *)
From Coq Require Import String.
From Verif Require Import Base Problem_model Merged_model Solver_model Params_model Cli_model Log_model.
Open Scope Z_scope.

(** The levels of syslog, from the most serious to the least. *)
Definition severities : list kind := [K_emerg; K_alert; K_crit; K_err; K_warning; K_notice; K_info; K_debug].
(** [k] is one of the first [n] + 1 of them. *)
Definition within (n : nat) (k : kind) : Prop := In k (firstn (S n) severities).
(** The number of a level given as an integer that may be out of 0..7. *)
Definition nearest (z : Z) (n : nat) : Prop :=
  (n <= 7)%nat /\ (z < 0 -> n = 0%nat) /\ (0 <= z <= 7 -> Z.of_nat n = z) /\ (7 < z -> n = 7%nat).
(** [l] is [l'] without some of its elements, in the same order. *)
Inductive part_of {A} : list A -> list A -> Prop :=
| Part_nil : part_of [] []
| Part_keep a l l' : part_of l l' -> part_of (a :: l) (a :: l')
| Part_drop a l l' : part_of l l' -> part_of l (a :: l').
(** The build with the messages of the library. *)
Definition with_messages (b : build) : Prop := bd_log b = true.
(** The serious messages go to the standard error, the others to the standard output. *)
Definition its_stream (k : kind) (s : stream) : Prop :=
  (s = Standard_error /\ In k (firstn 5 severities)) \/ (s = Standard_output /\ In k (skipn 5 severities)).
(** [shown ok l out]: [out] are the messages of [l] for which [ok] holds and the ones of the tool, in order and each on its stream.
    [ok true k] is about messages of the tuning. *)
Inductive shown (ok : bool -> kind -> Prop) : list event -> list (stream * text) -> Prop :=
| Shown_nil : shown ok [] []
| Shown_own s msg l out : shown ok l out -> shown ok (Own s msg :: l) ((s, msg) :: out)
| Shown_yes k msg s l out : ok false k -> its_stream k s -> shown ok l out -> shown ok (Library k msg :: l) ((s, msg) :: out)
| Shown_no k msg l out : ~ ok false k -> shown ok l out -> shown ok (Library k msg :: l) out
| Shown_tuning_yes k msg s l out : ok true k -> its_stream k s -> shown ok l out -> shown ok (Tuning k msg :: l) ((s, msg) :: out)
| Shown_tuning_no k msg l out : ~ ok true k -> shown ok l out -> shown ok (Tuning k msg :: l) out.
(** The messages of the tool itself. *)
Fixpoint own (l : list event) : list (stream * text) :=
  match l with [] => [] | Own s msg :: r => (s, msg) :: own r | _ :: r => own r end.
Definition on (s : stream) (l : list (stream * text)) : list text :=
  map snd (filter (fun p => match fst p, s with Standard_output, Standard_output | Standard_error, Standard_error => true | _, _ => false end) l).
(** Two readings of a command line that differ by [quiet] and by the place of the last argument read. *)
Definition but_quiet (m m' : main_parameters) : Prop :=
  mp_params m = mp_params m' /\ mp_files m = mp_files m' /\ mp_check_filename m = mp_check_filename m' /\ mp_bench_name m = mp_bench_name m' /\
  mp_verbose m = mp_verbose m' /\ mp_check m = mp_check m' /\ mp_optimize m = mp_optimize m' /\ mp_bench m = mp_bench m' /\
  mp_status m = mp_status m'.
