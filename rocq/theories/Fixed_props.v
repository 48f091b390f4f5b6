(** C116, C117: fixed_array and fixed_2darray. *)
From Verif Require Import Base Fixed_model Fixed_spec Fixed_proofs.
Open Scope nat_scope.

(** C116. Any program that makes, copies, moves, assigns, swaps, writes and destroys arrays behaves as if the arrays were values that share nothing: it is undefined for the same
    programs, and in the end each array has the size, the elements and the emptiness of its value; each block of memory in use belongs to one array that has one, so that
    destroying all the arrays frees everything. Missing: an array that was moved from keeps its length (C116_refuted). *)
Theorem C116_arrays_are_values_partial : forall (T : Type) (z : T) (program : list (operation T)),
  match execute_all z (mk_memory [] []) program, perform_all z [] program with
  | Some m, Some s =>
    (forall a, size m a = option_map length_of (value_at s a)) /\
    (forall a i, get m a i = match value_at s a with Some (A_array l) => nth_error l i | _ => None end) /\
    (forall a l, value_at s a = Some (A_array l) -> elements m a = Some l /\ empty m a = Some (Nat.eqb (length l) 0) /\ has_buffer m a = Some true /\
      front m a = nth_error l 0 /\ back m a = nth_error (rev l) 0) /\
    blocks_in_use m = with_buffer s
  | None, None => True
  | _, _ => False
  end.
Proof.
  intros T z program. pose proof (run_ok z program (mk_memory [] []) inv0) as K. change (abs (mk_memory [] [])) with (@nil (option (avalue T))) in K.
  destruct (execute_all z (mk_memory [] []) program) as [m|], (perform_all z [] program) as [s|]; try contradiction; try exact I.
  destruct K as [K <-]. split; [intros a; apply size_value; exact K|]. split; [intros a i; apply get_value; exact K|]. split; [|apply in_use; exact K].
  intros a l E. split; [rewrite elements_value, E by exact K; reflexivity|]. split; [rewrite empty_value, E by exact K; reflexivity|]. split; [rewrite buffer_value, E by exact K; reflexivity|].
  split; [unfold front; rewrite get_value, E by exact K; reflexivity|]. unfold back. rewrite size_value, E by exact K. cbn [option_map bind length_of].
  destruct (rev l) as [|x r] eqn:R.
  - apply (f_equal (@rev T)) in R. rewrite rev_involutive in R. subst l. reflexivity.
  - apply (f_equal (@rev T)) in R. rewrite rev_involutive in R. cbn in R. subst l. rewrite app_length. cbn [length]. rewrite Nat.add_1_r. rewrite get_value, E by exact K.
    rewrite nth_error_app2 by lia. rewrite Nat.sub_diag. reflexivity.
Qed.
Print Assumptions C116_arrays_are_values_partial.
(** Two arrays, a copy that is written afterwards, a swap, a move, and a destroyed array. *)
Definition C116_program : list (operation nat) := [O_fill 3 7; O_copy 0; O_set 1 2 5; O_size 2; O_swap 0 2; O_move 1; O_assign 0 3; O_destroy 2].
Example C116_example : perform_all 0 [] C116_program = Some [Some (A_array [7; 7; 5]); Some (A_gone 3); None; Some (A_array [7; 7; 5])] /\
  exists m, execute_all 0 (mk_memory [] []) C116_program = Some m /\ blocks_in_use m = 2 /\ get m 0 2 = Some 5.
Proof. split; [reflexivity|]. eexists. split; [vm_compute; reflexivity|]. split; reflexivity. Qed.
(** Programs with undefined behaviour. *)
Example C116_example_undefined : execute_all 0 (mk_memory [] []) [O_size 3; O_set 0 3 1] = None /\ execute_all 0 (mk_memory [] []) [O_size 3; O_destroy 0; O_copy 0] = None.
Proof. split; reflexivity. Qed.
(** An array moved from says that it is empty and has n elements; reading one of them, or copying the array, is undefined. *)
Theorem C116_refuted : forall n, 0 < n -> exists m : memory nat, execute_all 0 (mk_memory [] []) [O_size n; O_move 0] = Some m /\
  size m 0 = Some n /\ empty m 0 = Some true /\ (forall i, get m 0 i = None) /\ execute 0 m (O_copy 0) = None /\ elements m 0 = None.
Proof.
  intros n Hn. destruct n as [|n]; [lia|]. eexists. split; [reflexivity|]. cbn. repeat (split; [reflexivity|]). split; reflexivity.
Qed.
Print Assumptions C116_refuted.

Open Scope Z_scope.
(** C117. A fixed_2darray of rows * columns elements (fewer than 2^32): after any writes inside the array each cell has the value written there last and the others the value of
    the construction; a read or a write outside stops the program; size() is the number of cells; assign() of a range that is not empty gives its elements, row after row, to the
    first cells and keeps the others; after a copy assignment the copy has the cells of the source. Missing: copies of arrays with more rows than columns, arrays of 2^32 cells or
    more, empty ranges (C117_refuted), and moves. *)
Theorem C117_cells_partial : forall (T : Type) (z v : T) (rows columns : Z) (writes : list (Z * Z * T)),
  0 <= rows -> 0 <= columns -> rows * columns < 2 ^ 32 ->
  Forall (fun w => inside rows columns (fst (fst w)) (snd (fst w))) writes ->
  a2_new z rows columns = a2_fill rows columns z /\
  exists a, write_all (a2_fill rows columns v) writes = Ok a /\
    a2_rows a = rows /\ a2_columns a = columns /\ a2_size a = rows * columns /\ a2_empty a = (rows * columns =? 0) /\
    (forall r c, inside rows columns r c -> a2_get a r c = Ok (cell_after v writes r c)) /\
    (forall r c, 0 <= r -> 0 <= c -> ~ inside rows columns r c -> a2_get a r c = Throw /\ forall x, a2_set a r c x = Throw) /\
    (forall l, l <> [] -> exists b, a2_assign l a = Ok b /\ a2_rows b = rows /\ a2_columns b = columns /\
      forall r c, inside rows columns r c -> a2_get b r c = Ok (nth (Z.to_nat (r * columns + c)) l (cell_after v writes r c))) /\
    (rows <= columns -> columns * columns < 2 ^ 32 -> exists b, a2_assign_copy z a = Ok b /\ a2_rows b = rows /\ a2_columns b = columns /\
      forall r c, 0 <= r -> 0 <= c -> a2_get b r c = a2_get a r c).
Proof.
  intros T z v rows columns writes R C S F. split; [reflexivity|]. pose proof (fill_wf rows columns v R C S) as W0.
  destruct (writes_ok writes (a2_fill rows columns v) W0 F) as (a & E & W & E1 & E2 & G). cbn [a2_fill a2_rows a2_columns] in E1, E2.
  exists a. split; [exact E|]. split; [exact E1|]. split; [exact E2|]. destruct (size_ok a W) as [S1 S2]. rewrite E1, E2 in S1, S2. split; [exact S1|]. split; [exact S2|].
  assert (G' : forall r c, inside rows columns r c -> a2_get a r c = Ok (cell_after v writes r c)) by (intros r c I; apply G; [exact I|apply fill_get; assumption]).
  split; [exact G'|]. split; [intros r c H1 H2 H; apply outside_get; try assumption; rewrite E1, E2; exact H|]. split.
  - intros l NE. destruct (assign_ok2 a l W NE) as (b & B & _ & B1 & B2 & K). exists b. split; [exact B|]. split; [congruence|]. split; [congruence|]. rewrite E1, E2 in K. intros r c I. rewrite (K r c I).
    destruct (nth_error l _) as [x|] eqn:N; [rewrite (nth_error_nth _ _ _ N); reflexivity|]. rewrite (G' r c I). apply nth_error_None in N. rewrite nth_overflow by exact N. reflexivity.
  - intros L Q. destruct (copy_ok z a W) as (b & B & _ & B1 & B2 & K); [rewrite E1, E2; exact L|rewrite E2; exact Q|]. exists b. split; [exact B|]. split; [congruence|]. split; [congruence|exact K].
Qed.
Print Assumptions C117_cells_partial.
Example C117_example : inside 2 3 1 2 /\ inside 2 3 0 2 /\ cell_after 0 [(1, 2, 5); (0, 2, 6); (1, 2, 7)] 1 2 = 7 /\
  exists a, write_all (a2_fill 2 3 0) [(1, 2, 5); (0, 2, 6); (1, 2, 7)] = Ok a /\ a2_get a 1 2 = Ok 7 /\ a2_get a 2 0 = Throw /\
  exists b, a2_assign [1; 2; 3; 4] a = Ok b /\ a2_get b 1 0 = Ok 4 /\ a2_get b 1 2 = Ok 7.
Proof. split; [split; lia|]. split; [split; lia|]. split; [reflexivity|]. eexists. split; [vm_compute; reflexivity|]. split; [reflexivity|]. split; [reflexivity|]. eexists. split; [vm_compute; reflexivity|]. split; reflexivity. Qed.
(** The copy assignment of any array with cells and more rows than columns (fewer than 2^32 cells) writes outside of the memory it allocated; an array of 65536 rows and 65536 columns
    has size 0 and its cells are outside of its memory; assign() of an empty range reads an element that does not exist. *)
Theorem C117_refuted :
  (forall rows columns (v : Z), 0 < columns < rows -> rows * columns < 2 ^ 32 -> a2_assign_copy 0 (a2_fill rows columns v) = Crash) /\
  (let a := a2_new 0 65536 65536 in a2_size a = 0 /\ a2_empty a = true /\ a2_rows a = 65536 /\ a2_get a 3 4 = Crash) /\
  (forall a : @array2 Z, 0 < a2_rows a -> 0 < a2_columns a -> a2_assign [] a = Crash).
Proof.
  split; [|split].
  - intros rows columns v H S. unfold a2_assign_copy, a2_size. cbn [a2_fill a2_rows a2_columns a2_buffer]. rewrite !u32_small by nia.
    destruct (Z.to_nat (columns * rows)) eqn:N; [nia|]. rewrite <- N. cbn [bind]. rewrite (proj2 (Nat.leb_gt (Z.to_nat (columns * rows)) (Z.to_nat (columns * columns)))) by nia.
    rewrite andb_false_r. reflexivity.
  - cbn zeta. split; [vm_compute; reflexivity|]. split; [vm_compute; reflexivity|]. split; [reflexivity|vm_compute; reflexivity].
  - intros a R C. unfold a2_assign, a2_cells, zseq. destruct (Z.to_nat (a2_rows a)) eqn:E1; [lia|]. destruct (Z.to_nat (a2_columns a)) eqn:E2; [lia|]. reflexivity.
Qed.
Print Assumptions C117_refuted.
