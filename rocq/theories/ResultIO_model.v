(** Model of the solution file format: writer lib/src/result.hpp:156-224 and reader
    lib/src/result.cpp:36-123. *)
From Coq Require Import Ascii.
From Verif Require Import Base Problem_model Classify_model Validate_model.
Open Scope Z_scope.

(** The end of line of result.hpp:156-224. *)
Definition nl : ascii := ascii_of_nat 10.
(** The first character of a comment, result.hpp:156-194 and result.cpp:36-123. *)
Definition backslash : ascii := ascii_of_nat 92.
(** The separator of result.hpp:196-210 and result.cpp:36-123. *)
Definition equal_sign : ascii := ascii_of_nat 61.
(** std::isspace in the "C" locale. *)
Definition isspace (c : ascii) : bool :=
  let n := nat_of_ascii c in Nat.eqb n 32 || (Nat.leb 9 n && Nat.leb n 13).
(** A decimal digit for sscanf, result.cpp:71. *)
Definition digit (c : ascii) : option Z :=
  let n := Z.of_nat (nat_of_ascii c) in
  if (48 <=? n) && (n <=? 57) then Some (n - 48) else None.

(** Lines "{}={}\n", result.hpp:196-210. *)
Definition value_char (b : bool) : ascii := if b then ascii_of_nat 49 else ascii_of_nat 48.
(** One line "{}={}\n", result.hpp:196-210. *)
Definition value_line (nm : text) (b : bool) : text := nm ++ equal_sign :: value_char b :: [nl].
(** The loop of result.hpp:196-210. *)
Fixpoint value_lines (names : list text) (values : list bool) : option text :=
  match names with
  | [] => Some []
  | nm :: names' =>
    match values with
    | b :: values' => do r <- value_lines names' values'; Some (value_line nm b ++ r)
    | [] => None
    end
  end.
(** result.hpp:164-223 for a successful result with a solution. The lines before the
    values (solver name, sizes, duration, objective) are [header]: any lines; those the code
    prints all start with a backslash. *)
Definition write_result (header : list text) (r : result) : outcome text :=
  let h := concat (map (fun l => l ++ [nl]) header) in
  match r_status r, r_last r with
  | st_success, Some s =>
    let! a := of_opt (value_lines (a_names (r_affected r)) (a_values (r_affected r))) in
    let! b := of_opt (value_lines (r_names r) (sl_variables s)) in
    Ok (h ++ a ++ b)
  | _, _ => Ok h
  end.

(** sscanf("%d"): result.cpp:71. [None]: matching failure (sscanf returns 0). An input made
    of blanks only gives EOF (-1), which the code takes for a success and keeps 0. A sign
    without digit is modelled as a matching failure; the conversion of a number outside of
    int (undefined) is modelled as the exact number. *)
Fixpoint skip_spaces (l : text) : text :=
  match l with c :: l' => if isspace c then skip_spaces l' else l | [] => [] end.
(** The digits read by sscanf("%d"), result.cpp:71. *)
Fixpoint digits (l : text) (acc : Z) : Z :=
  match l with
  | c :: l' => match digit c with Some d => digits l' (10 * acc + d) | None => acc end
  | [] => acc
  end.
(** sscanf("%d") after the sign, result.cpp:71 *)
Definition unsigned_int (l : text) : option Z :=
  match l with
  | c :: l' => match digit c with Some d => Some (digits l' d) | None => None end
  | [] => None
  end.
(** sscanf("%d"), result.cpp:71 *)
Definition scan_int (l : text) : option Z :=
  match skip_spaces l with
  | [] => Some 0
  | c :: l' => if Ascii.eqb c (ascii_of_nat 45) then option_map Z.opp (unsigned_int l')
               else if Ascii.eqb c (ascii_of_nat 43) then unsigned_int l'
               else unsigned_int (c :: l')
  end.
(** result.cpp:55-75; the size includes the final null character (line 110). *)
Definition to_int (right : text) : option Z :=
  if Nat.ltb 512 (S (length right)) then None else scan_int right.

(** buffer.find('='), lines 103-110 *)
Fixpoint find_equal (l : text) : option (text * text) :=
  match l with
  | [] => None
  | c :: l' => if Ascii.eqb c equal_sign then Some ([], l')
               else do r <- find_equal l'; Some (c :: fst r, snd r)
  end.

(** lines 93-119: one line *)
Definition read_line (buffer : text) (acc : list text * list bool) : outcome (list text * list bool) :=
  let comment := match skip_spaces buffer with c :: _ => Ascii.eqb c backslash | [] => false end in
  if comment then Ok acc
  else
    match find_equal buffer with
    | None => Throw
    | Some (lhs_, rhs_) =>
      match to_int rhs_ with
      | Some v => Ok (fst acc ++ [lhs_], snd acc ++ [negb (v =? 0)])
      | None => Throw
      end
    end.
(** lines 86-120: [buf] is what getline has read of the current line. *)
Fixpoint read_loop (input buf : text) (acc : list text * list bool) : outcome (list text * list bool) :=
  match input with
  | [] => match buf with [] => Ok acc | _ => read_line buf acc end
  | c :: input' =>
    if Ascii.eqb c nl then let! acc' := read_line buf acc in read_loop input' [] acc'
    else read_loop input' (buf ++ [c]) acc
  end.
(** lines 77-123 *)
Definition read_result (input : text) : outcome result :=
  let! r := read_loop input [] ([], []) in
  Ok (mk_result (mk_affected [] []) (fst r) [mk_solution (snd r) 0] st_success).
(** lines 36-48: [None] is a file that cannot be opened (the stream is not good). *)
Definition make_result (file : option text) : outcome result :=
  match file with
  | Some input => read_result input
  | None => Ok (mk_result (mk_affected [] []) [] [mk_solution [] 0] st_success)
  end.
