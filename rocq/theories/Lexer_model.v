(** Model of the token buffer of the LP parser: lib/src/parser.cpp:38-158 and 268-448.

    A text is a list of characters without the character 0. Words are read in ten arrays of
    512 characters used in turn and a token is a view (array, start, length) of one of them,
    as in the code: when an array is written again, the views of its former word change. *)
From Coq Require Import Ascii String.
From Verif Require Import Base Problem_model ResultIO_model.
Open Scope string_scope.
Open Scope list_scope.
Open Scope nat_scope.

(** The character 0 that ends an array of characters, parser.cpp:365-369. *)
Definition nul : ascii := ascii_of_nat 0.
(** The end of an array of characters, parser.cpp:365-369. *)
Definition is_nul (c : ascii) : bool := Nat.eqb (nat_of_ascii c) 0.
(** A test of the form c == ... or ..., parser.cpp:54-129. *)
Definition isc (c : ascii) (l : text) : bool := existsb (Ascii.eqb c) l.

(** are_equal, 38-53. std::tolower in the "C" locale. *)
Definition tolower (c : ascii) : ascii :=
  let n := nat_of_ascii c in if Nat.leb 65 n && Nat.leb n 90 then ascii_of_nat (n + 32) else c.
(** parser.cpp:38-53 *)
Fixpoint are_equal (a b : text) : bool :=
  match a, b with
  | [], [] => true
  | c :: a', d :: b' => Ascii.eqb (tolower c) (tolower d) && are_equal a' b'
  | _, _ => false
  end.
(** operator == on std::string_view *)
Definition text_eqb (a b : text) : bool := if list_eq_dec ascii_dec a b then true else false.

(** 54-64 *)
Definition is_char_operator (c : ascii) : bool := isc c (str "<>=").
(** parser.cpp:60-64 *)
Definition starts_with_operator (t : text) : bool := match t with c :: _ => is_char_operator c | [] => false end.
(** 66-102 *)
Definition is_digit (c : ascii) : bool := let n := nat_of_ascii c in Nat.leb 48 n && Nat.leb n 57.
(** std::isalpha in the "C" locale, parser.cpp:66-97 *)
Definition is_alpha (c : ascii) : bool :=
  let n := nat_of_ascii c in (Nat.leb 97 n && Nat.leb n 122) || (Nat.leb 65 n && Nat.leb n 90).
(** The double quote of parser.cpp:66-97. *)
Definition quote_char : ascii := ascii_of_nat 34.
(** parser.cpp:66-97 *)
Definition is_char_name (c : ascii) : bool :=
  is_alpha c || is_digit c || isc c (quote_char :: str "!#$%&(),.;?@_{}~").
(** parser.cpp:98-102 *)
Definition starts_with_name (t : text) : bool := match t with c :: _ => is_char_name c | [] => false end.
(** 104-129 *)
Definition is_number (c : ascii) : bool := is_digit c || isc c (str ".eE-+").
(** parser.cpp:111-116 *)
Definition starts_with_a_number (c : ascii) : bool := is_digit c || isc c (str ".-+").
(** parser.cpp:118-149 *)
Definition starts_with_number (t : text) : bool :=
  match t with
  | [] => false
  | c :: _ => (isc c (str "iI") && (are_equal t (str "infinity") || are_equal t (str "inf"))) || is_number c
  end.
(** 131-150 *)
Definition is_separator (c : ascii) : bool := isc c (str "<=>:-+[]*^").
(** 151-170 *)
Definition keywords : list text :=
  [str "binary"; str "binaries"; str "bin"; str "bound"; str "bounds"; str "general"; str "generals"; str "gen"; str "end";
   str "st"; str "subject"; str "sush"; str "s.t."; str "st."].
(** parser.cpp:156-170 *)
Definition is_keyword (t : text) : bool := existsb (fun k => are_equal k t) keywords.

(** ** The input stream *)
(** good(); eofbit only; failbit *)
Inductive stream := Live (t : text) | At_eof | Failed.
(** operator >> into an array of characters: the word (parser.cpp:376-447). *)
Fixpoint word_of (l : text) : text := match l with c :: l' => if isspace c then [] else c :: word_of l' | [] => [] end.
(** operator >> into an array of characters: what is left (parser.cpp:376-447). *)
Fixpoint after_word (l : text) : text := match l with c :: l' => if isspace c then l else after_word l' | [] => [] end.
(** The state of the stream after a word, parser.cpp:376-447. *)
Definition stream_of (l : text) : stream := match l with [] => At_eof | _ => Live l end.

(** stream_token::buffer, 365-369: 512 characters. is >> buffer copies a word and a final 0;
    a word of more than 511 characters overflows the array. *)
Definition slot_size : nat := 512.
(** operator >> into stream_token::buffer, parser.cpp:365-369 *)
Definition store (w m : text) : option text :=
  if Nat.ltb (length w) slot_size then Some (w ++ nul :: skipn (S (length w)) m) else None.
(** 394-407, the while loop, from [m]: one character at a time. [comment]: in a word that
    starts with a backslash or in what is.ignore skips, up to the end of the line. When the
    extraction fails, the array keeps the last comment read. *)
Fixpoint fetch (comment : bool) (m : text) (l : text) : option (text * stream) :=
  match l with
  | [] => Some (m, Failed)
  | c :: l' =>
    if comment then fetch (negb (Ascii.eqb c nl)) m l'
    else if isspace c then fetch false m l'
    else do m' <- store (word_of l) m;
         if Ascii.eqb c backslash then fetch true m' l' else Some (m', stream_of (after_word l))
  end.

(** ** stream_buffer *)
(** token, current_token_buffer and is: 371-374 *)
Record lexer := mk_lexer { lx_mem : list text; lx_pos : list nat; lx_cur : nat; lx_in : stream }.
(** std::string_view; [None] is the empty view. *)
Definition view := option (nat * nat * nat).
(** What a view reads now. *)
Definition resolve (mem : list text) (v : view) : text :=
  match v with
  | None => []
  | Some (s, p, n) => firstn n (skipn p (nth s mem []))
  end.
(** 427-443: length of the rest of the token; the array ends with a 0. *)
Fixpoint token_run (number : bool) (l : text) : option nat :=
  match l with
  | [] => None
  | c :: l' => if is_nul c || is_separator c || (number && negb (is_number c)) then Some 0 else option_map S (token_run number l')
  end.
(** 413-446 *)
Definition take_token (lx : lexer) : option (view * lexer) :=
  do m <- nth_error (lx_mem lx) (lx_cur lx);
  do p <- nth_error (lx_pos lx) (lx_cur lx);
  do c <- nth_error m p;
  do n <- (if is_separator c then Some 0 else token_run (starts_with_a_number c) (skipn (S p) m));
  do pos <- list_upd (lx_pos lx) (lx_cur lx) (p + S n);
  Some (Some (lx_cur lx, p, S n), mk_lexer (lx_mem lx) pos (lx_cur lx) (lx_in lx)).
(** next_token, 384-447 *)
Definition next_token (lx : lexer) : option (view * lexer) :=
  do m <- nth_error (lx_mem lx) (lx_cur lx);
  do p <- nth_error (lx_pos lx) (lx_cur lx);
  do c <- nth_error m p;
  if is_nul c then
    let cur := (lx_cur lx + 1) mod 10 in
    match lx_in lx with
    | Live t =>
      do m0 <- nth_error (lx_mem lx) cur;
      do (m', st) <- fetch false (nul :: tl m0) t;
      do mem <- list_upd (lx_mem lx) cur m';
      do pos <- list_upd (lx_pos lx) cur 0;
      let lx := mk_lexer mem pos cur st in
      do c' <- nth_error m' 0;
      if is_nul c' then Some (None, lx) else take_token lx
    | st => Some (None, mk_lexer (lx_mem lx) (lx_pos lx) cur st)
    end
  else take_token lx.

(** stream_buffer: the array of ten views *)
Record sbuf := mk_sbuf { sb_win : list view; sb_lx : lexer }.
(** do_push_back, 376-382: positions [i] to [i + k - 1] *)
Fixpoint push_back (k i : nat) (win : list view) (lx : lexer) : option sbuf :=
  match k with
  | O => Some (mk_sbuf win lx)
  | S k' => do (v, lx) <- next_token lx; do win <- list_upd win i v; push_back k' (S i) win lx
  end.
(** pop_front(), 282-298 *)
Definition pop_front (b : sbuf) : option sbuf :=
  match sb_win b with
  | v :: win => push_back 1 9 (win ++ [v]) (sb_lx b)
  | [] => None
  end.
(** pop_front(size), 300-318: the assignments of positions [i] to [i + n - 1], in order *)
Fixpoint shift (n i size : nat) (win : list view) : option (list view) :=
  match n with
  | O => Some win
  | S n' => do v <- nth_error win ((size + i) mod 10); do win <- list_upd win i v; shift n' (S i) size win
  end.
(** pop_front(size), parser.cpp:300-318 *)
Definition pop (size : nat) (b : sbuf) : option sbuf :=
  if Nat.leb 1 size && Nat.ltb size 10 then
    do v <- nth_error (sb_win b) 0;
    do win <- shift 9 0 size (sb_win b);
    do win <- list_upd win 9 v;
    push_back size (10 - size) win (sb_lx b)
  else None.
(** The constructor, 275-280 *)
Definition make_buffer (t : text) : option sbuf :=
  push_back 10 0 (repeat None 10) (mk_lexer (repeat (repeat nul slot_size) 10) (repeat 0 10) 0 (Live t)).
(** first(), second(), ...: 328-353 *)
Definition token_at (b : sbuf) (i : nat) : text := resolve (lx_mem (sb_lx b)) (nth i (sb_win b) None).
