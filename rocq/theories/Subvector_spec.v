(** Histories of a pool of sub-vectors. *)
From Verif Require Import Base Subvector_model.
Open Scope Z_scope.

(** What a client knows: the elements it was given and not released, with what it wrote in
    them. [alive s l] is a history that ends in the pool [s] with the live elements [l]:
    an element given by emplace has the content found there; the client releases, writes,
    fills, copies and inverts only elements it holds. *)
Inductive alive (esize : nat) : subvector -> list (nat * list Z) -> Prop :=
| alive_init s : su_init esize = Some (s, true) -> alive esize s []
| alive_emplace s l s' i c : alive esize s l -> su_emplace s = Some (s', i) -> su_element s' i = Some c ->
    alive esize s' ((i, c) :: l)
| alive_remove s l1 i c l2 s' : alive esize s (l1 ++ (i, c) :: l2) -> su_remove s i = Some s' ->
    alive esize s' (l1 ++ l2)
| alive_set s l1 i c l2 k v s' c' : alive esize s (l1 ++ (i, c) :: l2) -> (k < esize)%nat ->
    su_set s (i + k) v = Some s' -> list_upd c k v = Some c' -> alive esize s' (l1 ++ (i, c') :: l2)
| alive_fill s l1 i c l2 v s' : alive esize s (l1 ++ (i, c) :: l2) -> su_fill s i v = Some s' ->
    alive esize s' (l1 ++ (i, repeat v esize) :: l2)
| alive_copy s l1 i c l2 j d s' : alive esize s (l1 ++ (i, c) :: l2) -> In (j, d) (l1 ++ (i, c) :: l2) ->
    su_copy s j i = Some s' -> alive esize s' (l1 ++ (i, d) :: l2)
| alive_invert s l1 i c l2 k v s' c' : alive esize s (l1 ++ (i, c) :: l2) -> (k < esize)%nat ->
    su_invert s i k = Some s' -> nth_error c k = Some v -> list_upd c k (if v =? 0 then 1 else 0) = Some c' ->
    alive esize s' (l1 ++ (i, c') :: l2).

(** Two elements share no cell. *)
Definition disjoint (esize i j : nat) : Prop := (i + esize <= j \/ j + esize <= i)%nat.
