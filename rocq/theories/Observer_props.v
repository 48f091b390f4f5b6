(** The properties of the observers: C95 to C100. *)
From Coq Require Import String QArith Qround Qminmax Lqa.
From Verif Require Import Base Problem_model Matrix_model Matrix_spec Params_model Validate_model ResultIO_model Writer_model Observer_model Observer_spec Observer_proofs.
Open Scope string_scope.
Open Scope list_scope.
Open Scope Z_scope.

(** C100: a colour for every number, from blue at the lower bound and below to red at the upper bound and above. *)
Theorem C100_colours : forall lower upper : Q, (lower < upper)%Q ->
  (forall v, number v -> exists c, colormap lower upper v = Some c /\ byte (red c) /\ byte (green c) /\ byte (blue c)) /\
  (forall v, at_most v (Fin lower) -> colormap lower upper v = Some (mk_rgb 0 0 255)) /\
  (forall v, at_most (Fin upper) v -> colormap lower upper v = Some (mk_rgb 255 0 0)) /\
  colormap lower upper (Fin ((lower + upper) / 2)) = Some (mk_rgb 0 255 0) /\
  (forall t : Q, (0 <= t <= 1)%Q -> colormap lower upper (Fin (lower + t * (upper - lower))) = Some (shade_at t)) /\
  (forall v w a b, at_most v w -> colormap lower upper v = Some a -> colormap lower upper w = Some b -> red a <= red b /\ blue b <= blue a).
Proof. exact colormap_props. Qed.
Print Assumptions C100_colours.
Example C100_ex : colormap (-1) 1 (Fin (-3 # 4)) = Some (mk_rgb 0 127 255) /\ colormap (-1) 1 (Fin (1 # 3)) = Some (mk_rgb 170 255 0) /\ colormap (-1) 1 PosInf = Some (mk_rgb 255 0 0).
Proof. vm_compute. auto. Qed.

(** C95: the image of the multipliers is a complete PNM file whatever the number of observations. *)
Theorem C95_multiplier_image_complete : forall (m loop : nat) (observed : list (list dbl)),
  (0 < m)%nat -> (0 < loop)%nat -> Forall (fun pi => (m <= length pi)%nat /\ Forall number pi) observed ->
  exists img, pi_image true (Z.of_nat m) (Z.of_nat loop) observed =
                Some (bytes_of_text (str "P6 " ++ show_int (Z.of_nat m) ++ str " " ++ show_int (Z.of_nat loop) ++ str " 255 ") ++ img) /\
    length img = (3 * m * loop)%nat /\ Forall byte img.
Proof.
  intros m loop l Hm Hloop Hl. rewrite (pi_image_ok m loop l Hm Hloop Hl). eexists. split; [reflexivity|].
  destruct (pi_rows_ok m loop l Hm Hl) as (H1 & H2 & H3). split; [|exact H3]. rewrite (concat_length_const (3 * m) _ H2), H1. reflexivity.
Qed.
Print Assumptions C95_multiplier_image_complete.
Example C95_ex : pi_image true 2 3 [[Fin (1 # 3); Fin (-1)]] = Some (bytes_of_text (str "P6 2 3 255 ") ++ [0; 0; 255; 0; 0; 0; 0; 0; 255; 0; 0; 0; 0; 0; 255; 0; 0; 0]).
Proof. vm_compute. reflexivity. Qed.

(** C96: line [k] shows the multipliers after sweep [k]. It shows only the last of them, in the first pixel, and the lines after the last
    sweep repeat the line of the last sweep. *)
Theorem C96_multiplier_image_partial : forall (m loop : nat) (observed : list (list dbl)),
  (0 < m)%nat -> (0 < loop)%nat -> Forall (fun pi => (m <= length pi)%nat /\ Forall number pi) observed ->
  exists rows, pi_image true (Z.of_nat m) (Z.of_nat loop) observed = Some (bytes_of_text (header (Z.of_nat m) (Z.of_nat loop)) ++ concat rows) /\
    length rows = loop /\ Forall (fun r => length r = (3 * m)%nat) rows /\
    (forall k pi v c, (k < loop)%nat -> nth_error observed k = Some pi -> nth_error pi (m - 1) = Some v -> colormap (-1) 1 v = Some c ->
       nth_error rows k = Some (bytes_of c ++ concat (repeat black (m - 1)))) /\
    (forall k, (length observed <= k < loop)%nat -> (0 < length observed)%nat -> nth_error rows k = nth_error rows (length observed - 1)) /\
    (observed = [] -> rows = repeat (concat (repeat black m)) loop).
Proof. exact pi_image_rows. Qed.
Print Assumptions C96_multiplier_image_partial.
Theorem C96_multiplier_image_one_partial : forall (loop : nat) (observed : list (list dbl)),
  (0 < loop)%nat -> Forall (fun pi => (1 <= length pi)%nat /\ Forall number pi) observed ->
  exists img, pi_image true 1 (Z.of_nat loop) observed = Some (bytes_of_text (header 1 (Z.of_nat loop)) ++ img) /\
    forall k pi v c, (k < loop)%nat -> nth_error observed k = Some pi -> nth_error pi 0 = Some v -> colormap (-1) 1 v = Some c -> pixel img 1 k 0 = bytes_of c.
Proof. exact pi_image_one. Qed.
Print Assumptions C96_multiplier_image_one_partial.
Theorem C96_multiplier_image_refuted : exists (m loop : nat) (observed : list (list dbl)) (img : list Z) (pi : list dbl) (v : dbl) (c : rgb),
  (0 < m)%nat /\ (0 < loop)%nat /\ Forall (fun pi => (m <= length pi)%nat /\ Forall number pi) observed /\
  pi_image true (Z.of_nat m) (Z.of_nat loop) observed = Some (bytes_of_text (header (Z.of_nat m) (Z.of_nat loop)) ++ img) /\
  nth_error observed 0 = Some pi /\ nth_error pi 0 = Some v /\ colormap (-1) 1 v = Some c /\ pixel img m 0 0 <> bytes_of c.
Proof.
  exists 2%nat, 1%nat, [[Fin 1; Fin (-1)]], [0; 0; 255; 0; 0; 0], [Fin 1; Fin (-1)], (Fin 1), (mk_rgb 255 0 0).
  split; [lia|]. split; [lia|]. split; [repeat constructor; discriminate|]. split; [vm_compute; reflexivity|].
  split; [reflexivity|]. split; [reflexivity|]. split; [vm_compute; reflexivity|]. vm_compute. discriminate.
Qed.
Print Assumptions C96_multiplier_image_refuted.

(** C97: the observers never make a run fail. *)
Theorem C97_observers_harmless_partial : forall (m loop : nat) (observed : list (list dbl)),
  (0 < m)%nat -> (0 < loop)%nat -> Forall (fun pi => (m <= length pi)%nat /\ Forall number pi) observed ->
  pi_image true (Z.of_nat m) (Z.of_nat loop) observed <> None.
Proof. intros m loop l Hm Hloop Hl. rewrite (pi_image_ok m loop l Hm Hloop Hl). discriminate. Qed.
Print Assumptions C97_observers_harmless_partial.
(** A limit below 0 (no limit), a file that cannot be created, and a multiplier that is not a number. *)
Theorem C97_observers_harmless_refuted :
  (forall (m : nat) loop pi rest, (0 < m)%nat -> loop < 0 -> pi_image true (Z.of_nat m) loop (pi :: rest) = None) /\
  (forall (m : nat) loop pi rest, (0 < m)%nat -> pi_image false (Z.of_nat m) loop (pi :: rest) = None) /\
  pi_image true 1 1 [[NaN]] = None.
Proof. exact observers_fail. Qed.
Print Assumptions C97_observers_harmless_refuted.

(** C98: the image of the preferences, one pixel for each constraint and variable, one file for each sweep. *)
Theorem C98_preference_images_partial : forall (base : text) (csts : list (list felem)) (n : nat) (ap : matrix) (observed : list (list dbl)),
  make_matrix csts n = Some ap -> (exists c, In c csts /\ c <> []) ->
  (forall c, In c csts -> NoDup (map f_var c) /\ forall e, In e c -> (f_var e < n)%nat) ->
  3 * Z.of_nat (length csts) * Z.of_nat n < 2 ^ 32 ->
  Forall (fun P => Forall number P /\ (elements_before csts (length csts) <= length P)%nat) observed ->
  exists files, P_images base (Z.of_nat (length csts)) (Z.of_nat n) ap 0 observed = Some files /\ length files = length observed /\
    forall q P, nth_error observed q = Some P -> exists img,
      nth_error files q = Some (base ++ str "-P-" ++ show_int (Z.of_nat q) ++ str ".pnm",
        bytes_of_text (str "P6 " ++ show_int (Z.of_nat n) ++ str " " ++ show_int (Z.of_nat (length csts)) ++ str " 255 ") ++ img) /\
      length img = (3 * (length csts * n))%nat /\ Forall byte img /\
      (forall k p v, element_at csts k p v ->
         exists x c, nth_error P (elements_before csts k + p) = Some x /\ colormap (-1) 1 x = Some c /\ pixel img n k v = bytes_of c) /\
      (forall k v, (k < length csts)%nat -> (v < n)%nat -> (forall p, ~ element_at csts k p v) -> pixel img n k v = black).
Proof. exact P_images_all. Qed.
Print Assumptions C98_preference_images_partial.
Definition ex_csts : list (list felem) := [[mk_felem 1 2; mk_felem 1 0]; [mk_felem (-1) 1]].
Example C98_ex : exists ap, make_matrix ex_csts 3 = Some ap /\
  (forall c, In c ex_csts -> NoDup (map f_var c) /\ forall e, In e c -> (f_var e < 3)%nat) /\
  P_images (str "img") 2 3 ap 0 [[Fin 1; Fin 0; Fin (-1)]] =
    Some [(str "img-P-0.pnm", bytes_of_text (str "P6 3 2 255 ") ++ [0; 255; 0; 0; 0; 0; 255; 0; 0; 0; 0; 0; 0; 0; 255; 0; 0; 0])].
Proof.
  destruct (make_matrix ex_csts 3) as [ap|] eqn:E; vm_compute in E; [|discriminate]. injection E as <-. eexists. split; [reflexivity|]. split; [|vm_compute; reflexivity].
  intros c [<-|[<-|[]]]; (split; [repeat constructor; cbn; lia|]); cbn; intros e H; repeat destruct H as [<-|H]; try contradiction; cbn; lia.
Qed.
(** From 2^32 bytes on the buffer is too small for the last pixel; with 2^32 pixels there is no image at all. *)
Theorem C98_preference_images_refuted :
  (forall m n, 0 < m -> 0 < n -> 2 ^ 32 <= 3 * m * n ->
     exists off, pixel_at m n (m - 1) (n - 1) = Some off /\ array_size m n <= off + 2) /\
  (forall m n ap P, n * m = 2 ^ 32 -> P_image m n ap P = Some None).
Proof.
  split.
  - intros m n Hm Hn H. exists ((((m - 1) * n) + (n - 1)) * 3). split.
    + unfold pixel_at. rewrite (proj2 (Z.ltb_lt (m - 1) m)) by lia. rewrite (proj2 (Z.ltb_lt (n - 1) n)) by lia. reflexivity.
    + unfold array_size, wrap32. pose proof (Z.mod_pos_bound (3 * m * n) (2 ^ 32) ltac:(lia)). nia.
  - intros m n ap P H. unfold P_image, has_array. rewrite H. reflexivity.
Qed.
Print Assumptions C98_preference_images_refuted.
Example C98_refuted_ex : 0 < 50000 /\ 0 < 30000 /\ 2 ^ 32 <= 3 * 50000 * 30000 /\ 65536 * 65536 = 2 ^ 32.
Proof. lia. Qed.

(** C99: the text files. *)
Theorem C99_preference_texts : forall (F : Type) (show_float : F -> text) (zero : F) (base : text) (csts : list (list felem)) (n : nat) (ap : matrix) (observed : list (list F)),
  make_matrix csts n = Some ap -> (exists c, In c csts /\ c <> []) ->
  (forall c, In c csts -> NoDup (map f_var c) /\ forall e, In e c -> (f_var e < n)%nat) ->
  Forall (fun P => (elements_before csts (length csts) <= length P)%nat) observed ->
  exists files, P_texts show_float zero base (length csts) n ap 0 observed = Some files /\ length files = length observed /\
    forall q P, nth_error observed q = Some P -> exists rows,
      nth_error files q = Some (base ++ str "-P-" ++ show_int (Z.of_nat q) ++ str ".txt",
        flat_map (fun r => flat_map (fun v => show_float v ++ str " ") r ++ [nl]) rows) /\
      length rows = length csts /\
      (forall k r, nth_error rows k = Some r -> length r = n /\
         (forall p v, element_at csts k p v -> nth_error r v = nth_error P (elements_before csts k + p)) /\
         (forall v, (v < n)%nat -> (forall p, ~ element_at csts k p v) -> nth_error r v = Some zero)).
Proof. exact @P_texts_all. Qed.
Print Assumptions C99_preference_texts.
Example C99_ex : exists ap, make_matrix ex_csts 3 = Some ap /\
  P_texts (fun z => show_int z) 0 (str "img") 2 3 ap 0 [[7; 8; 9]; [1; 2; 3]] =
    Some [(str "img-P-0.txt", str "8 0 7 " ++ [nl] ++ str "0 9 0 " ++ [nl]); (str "img-P-1.txt", str "2 0 1 " ++ [nl] ++ str "0 3 0 " ++ [nl])].
Proof. destruct (make_matrix ex_csts 3) as [ap|] eqn:E; vm_compute in E; [|discriminate]. injection E as <-. eexists. split; [reflexivity|]. vm_compute. reflexivity. Qed.

(** C101: img-pi.txt has a line of [m] numbers for each sweep: only when the uninitialised m_len exceeds 1, or with one constraint. *)
Definition pi_line_text {F} (show : F -> text) (m : nat) (pi : list F) : text :=
  match firstn m pi with [] => [] | v :: vs => show v ++ flat_map (fun w => str " " ++ show w) vs end ++ [nl].
Theorem C101_multiplier_text_partial : forall (F : Type) (show : F -> text) (len : Z) (m : nat) (observed : list (list F)),
  (0 < m)%nat -> (1 < len \/ m = 1%nat) -> Forall (fun pi => (m <= length pi)%nat) observed ->
  pi_text show len m observed = Some (flat_map (pi_line_text show m) observed).
Proof.
  intros F show len m l Hm Hlen Hl. induction Hl as [|pi l Hpi _ IH]; [reflexivity|]. cbn [pi_text flat_map]. rewrite IH.
  destruct pi as [|v pi]; [cbn in Hpi; lia|]. unfold pi_line, pi_line_text. destruct m as [|m]; [lia|]. cbn [nth_error bind firstn skipn]. rewrite Nat.sub_succ, Nat.sub_0_r.
  rewrite (proj2 (Nat.leb_le _ _) Hpi). destruct (1 <? len) eqn:E; cbn [bind]; [rewrite <- !app_assoc; reflexivity|].
  apply Z.ltb_ge in E. destruct Hlen as [H|H]; [lia|]. injection H as ->. cbn [firstn flat_map]. rewrite app_nil_r. reflexivity.
Qed.
Print Assumptions C101_multiplier_text_partial.
Theorem C101_multiplier_text_refuted : exists (len : Z) (m : nat) (observed : list (list Z)),
  (0 < m)%nat /\ Forall (fun pi => (m <= length pi)%nat) observed /\ pi_text show_int len m observed <> Some (flat_map (pi_line_text show_int m) observed).
Proof. exists 0, 2%nat, [[5; 6]]. split; [lia|]. split; [repeat constructor|]. vm_compute. discriminate. Qed.
Print Assumptions C101_multiplier_text_refuted.
