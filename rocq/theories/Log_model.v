(** The messages of the library and their levels: lib/src/private.hpp, and the verbosity that the command line tool, the R
    interface and the automatic tuning give to a context. *)
From Coq Require Import String.
From Verif Require Import Base Problem_model Merged_model Solver_model Params_model Cli_model.
Open Scope Z_scope.

(** message_type (private.hpp:52-62). *)
Inductive kind := K_emerg | K_alert | K_crit | K_err | K_warning | K_notice | K_info | K_debug.
(** The number of a message_type (private.hpp:52-62). *)
Definition number (k : kind) : Z :=
  match k with
  | K_emerg => 0 | K_alert => 1 | K_crit => 2 | K_err => 3 | K_warning => 4 | K_notice => 5 | K_info => 6 | K_debug => 7
  end.
(** The conversion of a number of 0..7 to a message_type (static_cast at private.hpp:68). *)
Definition kind_of (z : Z) : kind :=
  if z =? 0 then K_emerg else if z =? 1 then K_alert else if z =? 2 then K_crit else if z =? 3 then K_err
  else if z =? 4 then K_warning else if z =? 5 then K_notice else if z =? 6 then K_info else K_debug.
(** convert_verbose_level (private.hpp:66-69); std::clamp(level, 0, 7). *)
Definition convert_verbose_level (level : Z) : kind :=
  kind_of (if level <? 0 then 0 else if 7 <? level then 7 else level).
(** is_loggable (private.hpp:112-116). *)
Definition is_loggable (current : kind) (level : Z) : bool := level <=? number current.

(** The two streams of a process. *)
Inductive stream := Standard_output | Standard_error.
(** The stream given to log by the eight functions emerg, alert, crit, error, warning, notice, info and debug
    (private.hpp:150-263, 267-402 and 406-528: the same for the three forms of each function). *)
Definition stream_of (k : kind) : stream :=
  match k with K_emerg | K_alert | K_crit | K_err | K_warning => Standard_error | K_notice | K_info | K_debug => Standard_output end.
(** How the library was compiled: BARYONYX_ENABLE_LOG and BARYONYX_ENABLE_DEBUG (lib/CMakeLists.txt:98-99). *)
Record build := mk_build { bd_log : bool; bd_debug : bool }.
(** The level that each function gives to is_loggable (the second argument at private.hpp:156, 170, 184, 198, 212, 226, 240, 255,
    and in the other two forms). *)
Definition level_of (k : kind) : Z := number k.
(** One call of emerg .. debug with the text already formatted (private.hpp:150-528): what is printed. The colours are left out. *)
Definition say (b : build) (current : kind) (k : kind) (msg : text) : list (stream * text) :=
  if negb (bd_log b) then [] else
  match k with
  | K_debug => if negb (bd_debug b) then [] else if negb (is_loggable current (level_of K_debug)) then [] else [(stream_of K_debug, msg)]
  | _ => if negb (is_loggable current (level_of k)) then [] else [(stream_of k, msg)]
  end.

(** What happens during a run, in order: a message of the library, a message of the library in the context of the automatic tuning,
    and a direct call of fmt::print by the tool (the callbacks at main.cpp:62-310 and main at main.cpp:1170-1368), which asks no level. *)
Inductive event := Library (k : kind) (msg : text) | Tuning (k : kind) (msg : text) | Own (s : stream) (msg : text).
(** The context of the tuning is a copy of the context with its log_priority set (manual-optimizer.cpp:124-125,
    branch-optimizer.cpp:141-142, nlopt-optimizer.cpp:96-97). *)
Definition tuning_priority (current : kind) : kind := K_warning.
(** What is printed for an event when the context has the level [current] (private.hpp:150-528). *)
Definition happens (b : build) (current : kind) (e : event) : list (stream * text) :=
  match e with
  | Library k msg => say b current k msg
  | Tuning k msg => say b (tuning_priority current) k msg
  | Own s msg => [(s, msg)]
  end.
(** A run (private.hpp:150-528). *)
Definition printed (b : build) (current : kind) (l : list event) : list (stream * text) := List.concat (map (happens b current) l).

(** main.cpp:1191-1192: the level of the context made by the tool. *)
Definition tool_level (m : main_parameters) : kind := convert_verbose_level (if mp_quiet m then 3 else mp_verbose m).
(** rbaryonyx.cpp:399 and 557 *)
Definition r_level (verbose : bool) : kind := convert_verbose_level (if verbose then 6 else 4).
