(** A concrete double for the examples: rational numbers and the infinities. sscanf("%lf")
    reads the longest prefix that is a number: a sign, digits, a point and digits, an exponent,
    or inf or nan in any case (hexadecimal numbers are not read). *)
From Coq Require Import Ascii String QArith Qround.
From Verif Require Import Base Problem_model ResultIO_model Lexer_model Parser_model Writer_model.
Open Scope string_scope.
Open Scope list_scope.
Open Scope nat_scope.

Inductive xd := X_num (q : Q) | X_pinf | X_ninf | X_nan.
Definition starts_as (t : text) (s : string) : bool := are_equal (firstn (length (str s)) t) (str s).
Fixpoint take_digits (l : text) : list Z * text :=
  match l with
  | c :: l' => match digit c with Some d => let (ds, r) := take_digits l' in (d :: ds, r) | None => ([], l) end
  | [] => ([], [])
  end.
Definition number (ds : list Z) : Z := fold_left (fun a d => (10 * a + d)%Z) ds 0%Z.
Definition pow10 (z : Z) : Q := Qpower (10 # 1) z.
Definition scan_exponent (t : text) : Z :=
  match t with
  | c :: r =>
    if isc c (str "eE") then
      let '(neg, r) := match r with d :: r' => if Ascii.eqb d "-" then (true, r') else if Ascii.eqb d "+" then (false, r') else (false, r) | [] => (false, r) end in
      let n := number (fst (take_digits r)) in if neg then (- n)%Z else n
    else 0%Z
  | [] => 0%Z
  end.
Definition scan_unsigned (t : text) : option xd :=
  if starts_as t "inf" then Some X_pinf
  else if starts_as t "nan" then Some X_nan
  else
    let (ds, r) := take_digits t in
    let '(fs, r) := match r with c :: r' => if Ascii.eqb c "." then take_digits r' else ([], r) | [] => ([], r) end in
    match ds ++ fs with
    | [] => None
    | all => Some (X_num (Qred (Qmult (inject_Z (number all)) (pow10 (scan_exponent r - Z.of_nat (length fs))))))
    end.
Definition x_neg (d : xd) : xd := match d with X_num q => X_num (Qred (Qopp q)) | X_pinf => X_ninf | X_ninf => X_pinf | X_nan => X_nan end.
Definition x_scan (t : text) : option xd :=
  match t with
  | c :: r => if Ascii.eqb c "-" then option_map x_neg (scan_unsigned r) else if Ascii.eqb c "+" then scan_unsigned r else scan_unsigned t
  | [] => None
  end.
Definition x_add (a b : xd) : xd :=
  match a, b with
  | X_num p, X_num q => X_num (Qred (Qplus p q))
  | X_nan, _ | _, X_nan | X_pinf, X_ninf | X_ninf, X_pinf => X_nan
  | X_pinf, _ | _, X_pinf => X_pinf
  | X_ninf, _ | _, X_ninf => X_ninf
  end.
Definition x_map (f : Q -> Q) (d : xd) : xd := match d with X_num q => X_num (Qred (f q)) | _ => d end.
Definition x_int (d : xd) : option Z :=
  match d with
  | X_num q =>
    let z := if Qle_bool 0 q then Qfloor q else Qceiling q in
    if ((int_min <=? z)%Z && (z <=? int_max)%Z)%bool then Some z else None
  | _ => None
  end.
Definition x_gt (a b : xd) : bool :=
  match a, b with
  | X_num p, X_num q => negb (Qle_bool p q)
  | X_nan, _ | _, X_nan => false
  | X_pinf, X_pinf => false | X_pinf, _ => true
  | _, X_ninf => match a with X_ninf => false | _ => true end
  | _, _ => false
  end.
(** integers only *)
Definition x_show (d : xd) : text :=
  match d with X_num q => show_int (Qnum (Qred q)) | X_pinf => str "inf" | X_ninf => str "-inf" | X_nan => str "nan" end.
Definition xdops : dops xd :=
  mk_dops xd x_scan X_pinf (X_num 0) (X_num 1) x_neg x_add (x_map (fun q => Qdiv q 2)) (x_map (fun q => Qmult 2 q)) x_int
    (fun d => match d with X_pinf => true | _ => false end) (fun d => match d with X_ninf => true | _ => false end) x_gt x_show.

(** A text from its lines. *)
Fixpoint text_of (l : list string) : text := match l with [] => [] | s :: r => str s ++ nl :: text_of r end.
