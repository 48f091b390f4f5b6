(** Model of the reader of solution files with its string_buffer (lib/include/baryonyx/core:49-98, modelled in Utils_model.v): lib/src/result.cpp:77-123.
    The names of a result are std::string_view objects on the blocks of the buffer; in ResultIO_model.v they are texts. *)
From Coq Require Import Ascii.
From Verif Require Import Base Problem_model Classify_model Validate_model ResultIO_model Utils_model.
Open Scope nat_scope.

(** core:80-87 *)
Definition size (b : sbuffer) : nat := fold_left (fun cumul _ => cumul + 1) (sb_nodes b) 0.
(** core:51 *)
Definition node_length : nat := Z.to_nat (1024 * 1024)%Z.

(** result.cpp:93-119: one line of a solution file; the name goes in the buffer *)
Definition store_line (cap : nat) (buffer : text) (acc : sbuffer * list view * list bool) : outcome (sbuffer * list view * list bool) :=
  let comment := match skip_spaces buffer with c :: _ => Ascii.eqb c backslash | [] => false end in
  if comment then Ok acc
  else
    match find_equal buffer with
    | None => Throw
    | Some (lhs_, rhs_) =>
      match to_int rhs_ with
      | Some v =>
        match sb_append cap (fst (fst acc)) lhs_ with
        | Some (b, w) => Ok (b, snd (fst acc) ++ [w], snd acc ++ [negb (v =? 0)%Z])
        | None => Crash
        end
      | None => Throw
      end
    end.
(** result.cpp:86-120 *)
Fixpoint store_loop (cap : nat) (input buf : text) (acc : sbuffer * list view * list bool) : outcome (sbuffer * list view * list bool) :=
  match input with
  | [] => match buf with [] => Ok acc | _ => store_line cap buf acc end
  | c :: input' =>
    if Ascii.eqb c nl then let! acc' := store_line cap buf acc in store_loop cap input' [] acc'
    else store_loop cap input' (buf ++ [c]) acc
  end.
(** result.cpp:77-123: the buffer, the names and the values *)
Definition store_result (cap : nat) (input : text) : outcome (sbuffer * list view * list bool) :=
  store_loop cap input [] (sb_new, [], []).
