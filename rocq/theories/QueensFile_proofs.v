(** Proofs about the generated n-queens file. *)
From Coq Require Import Ascii String Permutation.
From Verif Require Import Base Problem_model Problem_spec ResultIO_model Chars_spec Lexer_model Lexer_spec Lexer_proofs Parser_model Parser_spec Parser_proofs Parser_proofs2 Parser_proofs3 Parser_proofs4 Parser_proofs5 Writer_model Writer_spec Writer_proofs Writer_proofs2 Writer_proofs3 Main_model Main_spec Main_proofs Queens_model Queens_spec Queens_proofs QueensFile_model QueensFile_spec.
Open Scope string_scope.
Open Scope list_scope.
Open Scope Z_scope.

Lemma nth_error_ext' {A} : forall l m : list A, List.length l = List.length m -> (forall k, nth_error l k = nth_error m k) -> l = m.
Proof.
  induction l as [|a l IH]; intros [|b m] Hl H; try discriminate; [reflexivity|]. pose proof (H 0%nat) as H0. cbn in H0. injection H0 as ->. f_equal. apply IH; [cbn in Hl; lia|]. intros k. apply (H (S k)).
Qed.

(** ** Names *)
Lemma digits_no_underscore z : 0 <= z -> ~ In "_"%char (show_int z).
Proof.
  intros Hz. unfold show_int. destruct (Z.ltb_spec z 0); [lia|]. destruct (show_digits_facts 20 z Hz) as [H1 _]. intros Hin.
  rewrite forallb_forall in H1. specialize (H1 _ Hin). vm_compute in H1. discriminate.
Qed.
Lemma show_int_inj a b : 0 <= a < 10 ^ 20 -> 0 <= b < 10 ^ 20 -> show_int a = show_int b -> a = b.
Proof.
  intros Ha Hb H. unfold show_int in H. destruct (Z.ltb_spec a 0); [lia|]. destruct (Z.ltb_spec b 0); [lia|].
  pose proof (proj2 (take_show 20 a Ha)) as E1. pose proof (proj2 (take_show 20 b Hb)) as E2. rewrite H in E1. congruence.
Qed.
Definition small_cell (c : cell) : Prop := 0 <= fst c <= int_max /\ 0 <= snd c <= int_max.
Lemma cell_name_inj a b : small_cell a -> small_cell b -> cell_name a = cell_name b -> a = b.
Proof.
  intros [A1 A2] [B1 B2] H. unfold cell_name in H. change (str "x_") with ["x"%char; "_"%char] in H. cbn [app] in H.
  assert (H' : show_int (fst a) ++ str "_" ++ show_int (snd a) = show_int (fst b) ++ str "_" ++ show_int (snd b)) by congruence. clear H.
  change (str "_") with ["_"%char] in H'. cbn [app] in H'. apply first_char in H'; try (apply digits_no_underscore; lia). destruct H' as [H1 H2].
  assert (Hm : int_max < 10 ^ 20) by (vm_compute; reflexivity).
  apply show_int_inj in H1; [|lia|lia]. apply show_int_inj in H2; [|lia|lia]. destruct a as [a1 a2], b as [b1 b2]; cbn [fst snd] in H1, H2; subst; reflexivity.
Qed.
Lemma show_int_digits z : 0 <= z -> forallb is_digit (show_int z) = true /\ (List.length (show_int z) <= 20)%nat.
Proof. intros Hz. unfold show_int. destruct (Z.ltb_spec z 0); [lia|]. destruct (show_digits_facts 20 z Hz) as [H1 [H2 _]]. auto. Qed.
Lemma digit_is_name : forall c, (if is_digit c then is_char_name c else true) = true.
Proof. apply all_chars. vm_compute. reflexivity. Qed.
Lemma digits_are_name l : forallb is_digit l = true -> forallb is_char_name l = true.
Proof. apply forallb_imp. intros c H. pose proof (digit_is_name c) as K. rewrite H in K. exact K. Qed.
Lemma cell_name_uncut c : small_cell c -> uncut (cell_name c).
Proof.
  intros [[A _] [B _]]. apply uncut_concrete. destruct (show_int_digits _ A) as [A1 A2]. destruct (show_int_digits _ B) as [B1 B2].
  unfold cell_name. rewrite !forallb_app, (digits_are_name _ A1), (digits_are_name _ B1), !app_length.
  change (List.length (str "x_")) with 2%nat. change (List.length (str "_")) with 1%nat.
  replace (2 + (List.length (show_int (fst c)) + (1 + List.length (show_int (snd c)))) <? 320)%nat with true by (symmetry; apply Nat.ltb_lt; lia).
  reflexivity.
Qed.
Lemma cell_name_x c : exists t, cell_name c = "x"%char :: t.
Proof. eexists. unfold cell_name. change (str "x_") with ["x"%char; "_"%char]. cbn [app]. reflexivity. Qed.

Section Reading.
Context {D : Type} (dn : dops D).
Hypothesis dn_ok : dops_ok dn.
Hypothesis dn_one : reads_one dn.

Lemma cell_name_ok c : small_cell c -> name_ok dn (cell_name c).
Proof.
  intros H. pose proof (cell_name_uncut c H) as [U1 [U2 U3]]. destruct (cell_name_x c) as [t Et]. unfold name_ok.
  split; [rewrite Et; discriminate|]. split; [exact U1|]. split; [rewrite Et; reflexivity|]. split; [exact U2|].
  split; [rewrite Et; reflexivity|]. rewrite Et. apply (proj1 dn_one).
Qed.

(** ** The document *)
Definition tm (c : cell) : term := mk_term (Some Plus) None (cell_name c).
Definition cst_of_line (l : qline) : cst :=
  mk_cst None (tm (hd (0, 0) (ql_cells l))) (map tm (tl (ql_cells l)))
    (if ql_equal l then op_equal else op_less) (if ql_equal l then Sp1 else Sp2) (mk_signed None (str "1")).
Definition doc (n : Z) : document :=
  let m := n_queens_body n in
  mk_document (str "minimize") None (map O_var (map tm (qm_objective m))) (mk_header [str "subject"; str "to"] false)
    (map cst_of_line (qm_lines m)) None (Some (mk_header [str "binary"] false, map cell_name (qm_binary m))) None (mk_header [str "end"] false).

(** ** The tokens of the text *)
Lemma lexes_drop c r toks : isspace c = true -> lexes (c :: r) toks -> lexes r toks.
Proof.
  intros Hc [ws [H1 [H2 [H3 H4]]]]. exists ws. split; [|split; [exact H2|split; [exact H3|inversion H4; assumption]]].
  intros s. rewrite <- H1. cbn [app]. symmetry. apply words_space. exact Hc.
Qed.
Lemma lexes_spaced w c r toks : uncut w -> isspace c = true -> lexes (c :: r) toks -> lexes (w ++ c :: r) (w :: toks).
Proof.
  intros Hw Hc H. change (w :: toks) with ([w] ++ toks). replace (w ++ c :: r) with ((w ++ [c]) ++ r) by (rewrite <- app_assoc; reflexivity).
  apply lexes_app; [apply lexes_uncut; assumption|]. apply (lexes_drop c); assumption.
Qed.
Lemma lexes_plus c r toks : isspace c = true -> lexes r toks -> lexes ("+"%char :: c :: r) (str "+" :: toks).
Proof.
  intros Hc H. change (str "+" :: toks) with ([str "+"] ++ toks). change ("+"%char :: c :: r) with ((str "+" ++ [c]) ++ r).
  apply lexes_app; [|exact H]. change [str "+"] with (split [] (str "+")). apply lexes_word; try reflexivity; try assumption; [discriminate|cbn; unfold slot_size; lia].
Qed.
Lemma lexes_blank c r toks : isspace c = true -> lexes r toks -> lexes (c :: r) toks.
Proof. intros Hc H. change (c :: r) with ([c] ++ r). change toks with ([] ++ toks). apply lexes_app; [apply lexes_space; exact Hc|exact H]. Qed.

Lemma objective_row l : Forall small_cell l -> lexes (flat_map objective_term l ++ [nl]) (flat_map term_tokens (map tm l)).
Proof.
  assert (H : Forall small_cell l -> lexes (flat_map objective_term l ++ [nl]) (flat_map term_tokens (map tm l)) /\
              exists c r, isspace c = true /\ flat_map objective_term l ++ [nl] = c :: r); [|intros K; apply H; exact K].
  induction 1 as [|c l Hc Hl IH]; cbn [map flat_map].
  - split; [apply lexes_space; reflexivity|]. exists nl, []. split; reflexivity.
  - split; [|exists sp; eexists; split; reflexivity]. destruct IH as [IH (b & r & Hb & E)].
    unfold objective_term at 1. rewrite <- app_assoc, E. rewrite <- app_assoc. change (str " + ") with [sp; "+"%char; sp]. cbn [app].
    apply lexes_blank; [reflexivity|]. apply lexes_plus; [reflexivity|]. apply lexes_spaced; [apply cell_name_uncut; exact Hc|exact Hb|]. rewrite <- E. exact IH.
Qed.
Lemma objective_rows (f : Z -> list cell) l : (forall i, In i l -> Forall small_cell (f i)) ->
  lexes (flat_map (fun i => flat_map objective_term (f i) ++ [nl]) l) (flat_map term_tokens (map tm (flat_map f l))).
Proof.
  induction l as [|i l IH]; intros H; cbn [flat_map map]; [apply lexes_nil|]. rewrite map_app, flat_map_app. apply lexes_app.
  - apply objective_row. apply H. left. reflexivity.
  - apply IH. intros k Hk. apply H. right. exact Hk.
Qed.
Lemma binary_row l : Forall small_cell l -> lexes (flat_map binary_name l ++ [nl]) (map cell_name l).
Proof.
  assert (H : Forall small_cell l -> lexes (flat_map binary_name l ++ [nl]) (map cell_name l) /\
              exists c r, isspace c = true /\ flat_map binary_name l ++ [nl] = c :: r); [|intros K; apply H; exact K].
  induction 1 as [|c l Hc Hl IH]; cbn [map flat_map].
  - split; [apply lexes_space; reflexivity|]. exists nl, []. split; reflexivity.
  - split; [|exists sp; eexists; split; reflexivity]. destruct IH as [IH (b & r & Hb & E)].
    unfold binary_name at 1. rewrite <- app_assoc, E. rewrite <- app_assoc. change (str "  ") with [sp; sp]. cbn [app].
    apply lexes_blank; [reflexivity|]. apply lexes_blank; [reflexivity|]. apply lexes_spaced; [apply cell_name_uncut; exact Hc|exact Hb|]. rewrite <- E. exact IH.
Qed.
Lemma binary_rows (f : Z -> list cell) l : (forall i, In i l -> Forall small_cell (f i)) ->
  lexes (flat_map (fun i => flat_map binary_name (f i) ++ [nl]) l) (map cell_name (flat_map f l)).
Proof.
  induction l as [|i l IH]; intros H; cbn [flat_map map]; [apply lexes_nil|]. rewrite map_app. apply lexes_app.
  - apply binary_row. apply H. left. reflexivity.
  - apply IH. intros k Hk. apply H. right. exact Hk.
Qed.
Lemma one_number : number_text dn (str "1").
Proof.
  destruct dn_one as [_ [[v [Hv _]] _]]. split; [|reflexivity]. split; [exists "1"%char, []; split; reflexivity|]. split; [cbn; lia|]. rewrite Hv. discriminate.
Qed.
Lemma line_terms l r toks : Forall small_cell l -> lexes r toks -> lexes (flat_map line_term l ++ r) (flat_map term_tokens (map tm l) ++ toks).
Proof.
  intros H Hr. induction H as [|c l Hc Hl IH]; cbn [map flat_map app]; [exact Hr|].
  unfold line_term at 1. rewrite <- !app_assoc. change (str "+ ") with ["+"%char; sp]. change (str " ") with [sp]. cbn [app].
  unfold term_tokens at 1. cbn [tm t_sign t_num t_var sign_tokens num_tokens app].
  apply lexes_plus; [reflexivity|]. apply lexes_spaced; [apply cell_name_uncut; exact Hc|reflexivity|]. apply lexes_blank; [reflexivity|exact IH].
Qed.
Lemma lexes_line (e : bool) l : l <> [] -> Forall small_cell l ->
  lexes (if e then equal_line l else less_line l) (cst_tokens (cst_of_line (mk_qline l e 1))).
Proof.
  intros Hl H. unfold cst_tokens, cst_of_line. cbn [k_label k_first k_terms k_op k_spell k_value ql_cells ql_equal label_tokens app].
  assert (E : term_tokens (tm (hd (0, 0) l)) ++ flat_map term_tokens (map tm (tl l)) = flat_map term_tokens (map tm l)) by (destruct l; [congruence|reflexivity]).
  rewrite app_assoc, E. unfold equal_line, less_line.
  assert (H1 : lexes (str "1" ++ [nl]) [str "1"]) by (apply (lexes_number dn); [apply one_number|reflexivity]).
  destruct e; apply line_terms; try exact H.
  - replace (str " = 1" ++ [nl]) with (str (sep_of op_equal) ++ str "1" ++ [nl]) by reflexivity. apply lexes_app; [apply (lexes_sep op_equal)|exact H1].
  - replace (str " <= 1" ++ [nl]) with (str (sep_of op_less) ++ str "1" ++ [nl]) by reflexivity. apply lexes_app; [apply (lexes_sep op_less)|exact H1].
Qed.
Lemma lexes_group (e : bool) (f : Z -> list cell) l : (forall i, In i l -> f i <> [] /\ Forall small_cell (f i)) ->
  lexes (flat_map (fun i => if e then equal_line (f i) else less_line (f i)) l)
        (flat_map cst_tokens (map cst_of_line (map (fun i => mk_qline (f i) e 1) l))).
Proof.
  induction l as [|i l IH]; intros H; cbn [flat_map map]; [apply lexes_nil|]. apply lexes_app.
  - destruct (H i (or_introl eq_refl)). apply lexes_line; assumption.
  - apply IH. intros k Hk. apply H. right. exact Hk.
Qed.

(** ** The cells of the lines *)
Lemma board_small n c : n <= int_max -> on_board n c -> small_cell c.
Proof. unfold on_board, small_cell. lia. Qed.
Lemma row_small n i : n <= int_max -> 0 <= i < n -> Forall small_cell (map (fun j => (i, j)) (range 0 n)).
Proof. intros Hn Hi. apply Forall_forall. intros c Hc. apply in_map_iff in Hc. destruct Hc as (j & <- & Hj). apply in_range in Hj. unfold small_cell. cbn [fst snd]. lia. Qed.
Lemma column_small n j : n <= int_max -> 0 <= j < n -> Forall small_cell (map (fun i => (i, j)) (range 0 n)).
Proof. intros Hn Hi. apply Forall_forall. intros c Hc. apply in_map_iff in Hc. destruct Hc as (i & <- & Hj). apply in_range in Hj. unfold small_cell. cbn [fst snd]. lia. Qed.
Lemma range_nonempty {A} (f : Z -> A) n : 3 <= n -> map f (range 0 n) <> [].
Proof. intros Hn E. apply (f_equal (@List.length _)) in E. rewrite map_length, range_length in E. cbn [List.length] in E. lia. Qed.
Lemma walk_nonempty n go di i j : 3 <= n -> go i j = true -> walk (Z.to_nat n) go di i j <> [].
Proof. intros Hn Hg. destruct (Z.to_nat n) as [|f] eqn:E; [lia|]. cbn [walk]. rewrite Hg. discriminate. Qed.
Lemma below_ok n d : 3 <= n <= int_max -> 0 <= d < n -> let w := walk (Z.to_nat n) (fun i j => (i <? n) && (j <? n)) 1 d 0 in w <> [] /\ Forall small_cell w.
Proof.
  intros Hn Hd w. split; [apply walk_nonempty; [lia|]; apply andb_true_intro; split; apply Z.ltb_lt; lia|].
  apply Forall_forall. intros c Hc. apply (board_small n); [lia|]. apply (below_walk n d c) in Hc; [apply Hc|lia|lia].
Qed.
Lemma above_ok n d : 3 <= n <= int_max -> 0 <= d < n -> let w := walk (Z.to_nat n) (fun i j => (0 <=? i) && (j <? n)) 1 0 d in w <> [] /\ Forall small_cell w.
Proof.
  intros Hn Hd w. split; [apply walk_nonempty; [lia|]; apply andb_true_intro; split; [reflexivity|apply Z.ltb_lt; lia]|].
  apply Forall_forall. intros c Hc. apply (board_small n); [lia|]. apply (above_walk n d c) in Hc; [apply Hc|lia|lia].
Qed.
Lemma anti_ok n i0 j0 : 3 <= n <= int_max -> 0 <= i0 < n -> 0 <= j0 < n -> j0 = 0 \/ i0 = n - 1 ->
  let w := walk (Z.to_nat n) (fun i j => (0 <=? i) && (j <? n)) (-1) i0 j0 in w <> [] /\ Forall small_cell w.
Proof.
  intros Hn Hi Hj Ho w. split; [apply walk_nonempty; [lia|]; apply andb_true_intro; split; [apply Z.leb_le; lia|apply Z.ltb_lt; lia]|].
  apply Forall_forall. intros c Hc. apply (board_small n); [lia|]. apply (anti_walk n i0 j0 c) in Hc; [apply Hc|lia|lia|lia|exact Ho].
Qed.

Theorem text_lexes n : 3 <= n <= int_max -> lexes (n_queens_text_body n) (document_tokens (doc n)).
Proof.
  intros Hn. unfold n_queens_text_body. cbv zeta. unfold document_tokens, doc. cbv zeta.
  cbn [dc_type dc_label dc_objective dc_subject dc_constraints dc_bounds dc_binary dc_general dc_end label_tokens app section_tokens].
  unfold header_tokens. cbn [h_words h_colon]. rewrite flat_map_o. unfold n_queens_body. cbv zeta. cbn [qm_objective qm_lines qm_binary].
  rewrite !map_app, !flat_map_app, <- !app_assoc.
  match goal with |- lexes _ (str "minimize" :: ?r) => change (str "minimize" :: r) with ([str "minimize"] ++ r) end.
  apply lexes_app; [unfold line; apply lexes_uncut; [apply uncut_concrete; reflexivity|reflexivity]|].
  apply lexes_app; [apply objective_rows; intros i Hi; apply in_range in Hi; apply row_small; lia|].
  cbn [app]. apply lexes_blank; [reflexivity|].
  match goal with |- lexes _ (str "subject" :: str "to" :: ?r) => change (str "subject" :: str "to" :: r) with (([str "subject"] ++ [str "to"]) ++ r) end.
  apply lexes_app.
  { change (line "subject to") with ((str "subject" ++ [sp]) ++ (str "to" ++ [nl])). apply lexes_app; apply lexes_uncut; try reflexivity; apply uncut_concrete; reflexivity. }
  apply lexes_app; [apply (lexes_group true); intros i Hi; apply in_range in Hi; split; [apply range_nonempty; lia|apply row_small; lia]|].
  apply lexes_app; [apply (lexes_group true); intros i Hi; apply in_range in Hi; split; [apply range_nonempty; lia|apply column_small; lia]|].
  apply lexes_blank; [reflexivity|].
  apply lexes_app; [apply (lexes_group false); intros i Hi; apply in_range in Hi; apply below_ok; lia|].
  apply lexes_app; [apply (lexes_group false); intros i Hi; apply in_range in Hi; apply above_ok; lia|].
  apply lexes_blank; [reflexivity|].
  apply lexes_app; [apply (lexes_group false); intros i Hi; apply in_range in Hi; apply anti_ok; lia|].
  apply lexes_app; [apply (lexes_group false); intros i Hi; apply in_range in Hi; apply anti_ok; lia|].
  apply lexes_blank; [reflexivity|].
  match goal with |- lexes _ (str "binary" :: ?r) => change (str "binary" :: r) with ([str "binary"] ++ r) end.
  apply lexes_app; [unfold line; apply lexes_uncut; [apply uncut_concrete; reflexivity|reflexivity]|].
  assert (Em : forall l : list text, flat_map (fun nm => [nm]) l = l) by (induction l as [|a l IH]; cbn [flat_map app]; congruence). rewrite Em.
  apply lexes_app; [apply binary_rows; intros i Hi; apply in_range in Hi; apply row_small; lia|].
  apply lexes_blank; [reflexivity|]. unfold line. apply lexes_uncut; [apply uncut_concrete; reflexivity|reflexivity].
Qed.

(** ** The document is well formed *)
Lemma line_cells n l : 3 <= n <= int_max -> In l (qm_lines (n_queens_body n)) -> ql_cells l <> [] /\ (forall c, In c (ql_cells l) -> on_board n c) /\ NoDup (ql_cells l) /\ ql_value l = 1.
Proof.
  intros Hn Hl. unfold n_queens_body in Hl. cbv zeta in Hl. cbn [qm_lines] in Hl.
  assert (K : forall (f : Z -> list cell) (e : bool) a b, (forall i, a <= i < b -> f i <> [] /\ (forall c, In c (f i) -> on_board n c) /\ NoDup (f i)) ->
    In l (map (fun i => mk_qline (f i) e 1) (range a b)) -> ql_cells l <> [] /\ (forall c, In c (ql_cells l) -> on_board n c) /\ NoDup (ql_cells l) /\ ql_value l = 1).
  { intros f e a b H Hin. apply in_map_iff in Hin. destruct Hin as (i & <- & Hi). apply in_range in Hi. destruct (H i Hi) as (H1 & H2 & H3). cbn [ql_cells ql_value]. auto. }
  repeat (apply in_app_or in Hl; destruct Hl as [Hl|Hl]); revert Hl; apply K; clear K; intros i Hi.
  - split; [apply range_nonempty; lia|]. split; [|apply row_nodup]. intros c Hc. apply (in_row n i c) in Hc. unfold on_board. lia.
  - split; [apply range_nonempty; lia|]. split; [|apply col_nodup]. intros c Hc. apply (in_col n i c) in Hc. unfold on_board. lia.
  - split; [apply below_ok; lia|]. split; [|apply walk_nodup]. intros c Hc. apply below_walk in Hc; [apply Hc|lia|lia].
  - split; [apply above_ok; lia|]. split; [|apply walk_nodup]. intros c Hc. apply above_walk in Hc; [apply Hc|lia|lia].
  - split; [apply anti_ok; lia|]. split; [|apply walk_nodup]. intros c Hc. apply anti_walk in Hc; [apply Hc|lia|lia|lia|lia].
  - split; [apply anti_ok; lia|]. split; [|apply walk_nodup]. intros c Hc. apply anti_walk in Hc; [apply Hc|lia|lia|lia|lia].
Qed.
Lemma line_terms_eq l : ql_cells l <> [] -> cst_terms (cst_of_line l) = map tm (ql_cells l).
Proof. intros H. unfold cst_terms, cst_of_line. cbn [k_first k_terms]. destruct (ql_cells l); [congruence|reflexivity]. Qed.

Lemma mem_In x l : mem x l = true <-> In x l. Proof. apply mem_spec. Qed.
Lemma filter_filter' {A} (f g : A -> bool) l : filter f (filter g l) = filter (fun x => f x && g x) l.
Proof. induction l as [|a l IH]; [reflexivity|]. cbn [filter]. destruct (g a); cbn [filter]; [rewrite andb_true_r|rewrite andb_false_r]; rewrite IH; reflexivity. Qed.
Lemma firsts_app a : forall b, firsts (a ++ b) = firsts a ++ filter (fun y => negb (mem y a)) (firsts b).
Proof.
  induction a as [|x a IH]; intros b; cbn [app firsts].
  - rewrite filter_all; [reflexivity|]. intros y _. reflexivity.
  - rewrite IH, filter_app. cbn [app]. f_equal. f_equal. rewrite filter_filter'. apply filter_ext. intros y. unfold mem at 2. cbn [existsb]. fold (mem y a).
    destruct (text_eqb_spec x y) as [E1|E1], (text_eqb_spec y x) as [E2|E2]; try congruence; destruct (mem y a); reflexivity.
Qed.
Definition board_names (n : Z) : list text := map cell_name (all_rows n (range 0 n)).
Lemma map_NoDup {A B} (f : A -> B) l : (forall a b, In a l -> In b l -> f a = f b -> a = b) -> NoDup l -> NoDup (map f l).
Proof.
  intros Hf H. induction H as [|a l Ha Hl IH]; cbn [map]; constructor.
  - intros K. apply in_map_iff in K. destruct K as (b & E & Hb). apply Ha. replace a with b; [exact Hb|]. apply Hf; [right; exact Hb|left; reflexivity|exact E].
  - apply IH. intros x y Hx Hy. apply Hf; right; assumption.
Qed.
Lemma board_names_NoDup n : n <= int_max -> NoDup (board_names n).
Proof.
  intros Hn. apply map_NoDup; [|apply rows_nodup, range_nodup]. intros a b Ha Hb. apply rows_all in Ha, Hb. apply cell_name_inj; apply (board_small n); assumption.
Qed.
Lemma doc_names n : 3 <= n <= int_max -> document_names (doc n) = board_names n.
Proof.
  intros Hn. unfold document_names, doc. cbv zeta. cbn [dc_objective dc_constraints]. rewrite onames, firsts_app.
  assert (E : map t_var (map tm (qm_objective (n_queens_body n))) = board_names n) by (rewrite map_map; reflexivity). rewrite E.
  rewrite firsts_id by (apply board_names_NoDup; lia). rewrite filter_none; [apply app_nil_r|].
  intros x Hx. apply (proj1 (firsts_In _ _)) in Hx. apply in_flat_map in Hx. destruct Hx as (k & Hk & Hx). apply in_map_iff in Hk. destruct Hk as (l & <- & Hl).
  destruct (line_cells n l Hn Hl) as (H1 & H2 & _ & _). rewrite line_terms_eq in Hx by exact H1. rewrite map_map in Hx. apply in_map_iff in Hx. destruct Hx as (c & <- & Hc).
  assert (K : mem (t_var (tm c)) (board_names n) = true); [|rewrite K; reflexivity]. apply mem_In. change (In (cell_name c) (board_names n)). unfold board_names. apply (in_map cell_name). apply rows_all. apply H2, Hc.
Qed.
Lemma one_value : int_of dn (signed_value dn (mk_signed None (str "1"))) = 1.
Proof. destruct dn_one as [_ [[v [Hv Hi]] _]]. unfold signed_value, value_of. cbn [s_sign s_num with_sign]. rewrite Hv. unfold int_of. rewrite Hi. reflexivity. Qed.
Lemma tm_coefficient c : coefficient dn (tm c) = 1.
Proof. destruct dn_one as [_ [_ H]]. unfold coefficient, term_value, tm. cbn [t_sign t_num with_sign]. unfold int_of. rewrite H. reflexivity. Qed.
Lemma doc_ok n : 3 <= n <= int_max -> document_ok dn minimize (doc n).
Proof.
  intros Hn. pose proof (doc_names n Hn) as HN. constructor; cbn [doc dc_type dc_label dc_objective dc_subject dc_constraints dc_bounds dc_binary dc_general dc_end].
  - reflexivity.
  - exact I.
  - rewrite <- (app_nil_r (map O_var _)). apply objective_ok_app; [|exact I]. apply Forall_forall. intros t Ht. apply in_map_iff in Ht. destruct Ht as (c & <- & Hc).
    split; [|exact I]. apply cell_name_ok. apply (board_small n); [lia|]. apply (rows_all n c). exact Hc.
  - right. exists (str "subject"), (str "to"). split; [reflexivity|]. left. split; reflexivity.
  - apply Forall_forall. intros k Hk. apply in_map_iff in Hk. destruct Hk as (l & <- & Hl). destruct (line_cells n l Hn Hl) as (H1 & H2 & _ & _).
    split; [exact I|]. split; [|split; [apply one_number|]].
    + rewrite line_terms_eq by exact H1. apply Forall_forall. intros t Ht. apply in_map_iff in Ht. destruct Ht as (c & <- & Hc). split; [split; [|exact I]|].
      * apply cell_name_ok. apply (board_small n); [lia|]. apply H2, Hc.
      * unfold int_ok, term_value, tm. cbn [t_sign t_num with_sign]. destruct dn_one as [_ [_ ->]]. discriminate.
    + destruct dn_one as [_ [[v [Hv Hi]] _]]. unfold int_ok, signed_value, value_of. cbn [cst_of_line k_value s_sign s_num with_sign]. rewrite Hv, Hi. discriminate.
  - exact I.
  - constructor.
  - split; [exists (str "binary"); split; reflexivity|]. apply Forall_forall. intros nm Hin. rewrite HN. exact Hin.
  - exact I.
  - exists (str "end"). split; reflexivity.
Qed.

(** ** The cells and the numbers of the variables *)
Lemma nth_error_blocks {A B} (f : A -> list B) m : forall l a b x y, (forall x, In x l -> List.length (f x) = m) -> (b < m)%nat ->
  nth_error l a = Some x -> nth_error (f x) b = Some y -> nth_error (flat_map f l) (a * m + b) = Some y.
Proof.
  induction l as [|z l IH]; intros a b x y Hl Hb Ha Hy; [destruct a; discriminate|]. cbn [flat_map]. destruct a as [|a].
  - cbn in Ha. injection Ha as ->. cbn [Nat.mul Nat.add]. rewrite nth_error_app1; [exact Hy|]. rewrite Hl by (left; reflexivity). exact Hb.
  - cbn in Ha. rewrite nth_error_app2; rewrite Hl by (left; reflexivity); [|cbn; lia].
    replace (S a * m + b - m)%nat with (a * m + b)%nat by (cbn; lia). apply (IH a b x); auto. intros w Hw. apply Hl. right. exact Hw.
Qed.
Lemma range_nth n k : 0 <= k < n -> nth_error (range 0 n) (Z.to_nat k) = Some k.
Proof.
  intros Hk. unfold range. rewrite Z.sub_0_r. assert (E : nth_error (seq 0 (Z.to_nat n)) (Z.to_nat k) = Some (Z.to_nat k)).
  { rewrite nth_error_nth' with (d := 0%nat); [|rewrite seq_length; lia]. rewrite seq_nth by lia. reflexivity. }
  apply (map_nth_error (fun k : nat => 0 + Z.of_nat k)) in E. rewrite E. f_equal. lia.
Qed.
Lemma rows_nth n i j : 0 <= i < n -> 0 <= j < n -> nth_error (all_rows n (range 0 n)) (cell_number n i j) = Some (i, j).
Proof.
  intros Hi Hj. unfold cell_number. replace (Z.to_nat (i * n + j)) with (Z.to_nat i * Z.to_nat n + Z.to_nat j)%nat by nia.
  apply (nth_error_blocks _ _ _ _ _ i).
  - intros x _. unfold row_cells. rewrite map_length, range_length. f_equal. lia.
  - lia.
  - apply range_nth; exact Hi.
  - unfold row_cells. apply (map_nth_error (fun j => (i, j))). apply range_nth; exact Hj.
Qed.
Lemma names_nth n i j : 0 <= i < n -> 0 <= j < n -> nth_error (board_names n) (cell_number n i j) = Some (cell_name (i, j)).
Proof. intros Hi Hj. unfold board_names. apply map_nth_error. apply rows_nth; assumption. Qed.
Lemma names_position n i j : n <= int_max -> 0 <= i < n -> 0 <= j < n -> position (cell_name (i, j)) (board_names n) = cell_number n i j.
Proof.
  intros Hn Hi Hj. pose proof (names_nth n i j Hi Hj) as E. pose proof (nth_error_In _ _ E) as Hin. pose proof (position_nth _ _ Hin) as E'.
  apply (proj1 (NoDup_nth_error (board_names n)) (board_names_NoDup n Hn)); [|congruence]. apply nth_error_Some. congruence.
Qed.
Lemma names_length n : 0 <= n -> Z.of_nat (List.length (board_names n)) = n * n.
Proof.
  intros Hn. unfold board_names. rewrite map_length. unfold all_rows.
  assert (E : forall l, List.length (flat_map (row_cells n) l) = (List.length l * Z.to_nat n)%nat).
  { induction l as [|a l IH]; [reflexivity|]. cbn [flat_map List.length]. rewrite app_length, IH. unfold row_cells at 1. rewrite map_length, range_length. rewrite Z.sub_0_r. reflexivity. }
  rewrite E, range_length. nia.
Qed.

(** ** The constraints *)
Lemma line_cst_sum V q l : ql_cells l <> [] -> (forall c, In c (ql_cells l) -> V (cell_name c) = q (fst c) (snd c)) -> cst_sum dn V (cst_of_line l) = line_sum q (ql_cells l).
Proof.
  intros Hne H. unfold cst_sum. rewrite line_terms_eq by exact Hne. clear Hne. induction (ql_cells l) as [|c r IH]; [reflexivity|]. cbn [map fold_right line_sum].
  rewrite IH by (intros; apply H; right; assumption). rewrite tm_coefficient. cbn [tm t_var]. rewrite H by (left; reflexivity). unfold bz. destruct (q (fst c) (snd c)); lia.
Qed.
Lemma doc_satisfies n V q : 3 <= n <= int_max -> (forall c, on_board n c -> V (cell_name c) = q (fst c) (snd c)) -> (satisfies dn V (doc n) <-> n_queens_placement n q).
Proof.
  intros Hn HV. rewrite <- (n_queens_ok n (n_queens_body n) q) by (unfold n_queens; destruct (Z.ltb_spec n 3); [lia|reflexivity]).
  unfold satisfies, satisfies_model, doc. cbn [dc_constraints]. rewrite Forall_forall.
  assert (E : forall l, In l (qm_lines (n_queens_body n)) -> (cst_holds dn V (cst_of_line l) <-> satisfies_line q l)).
  { intros l Hl. destruct (line_cells n l Hn Hl) as (H1 & H2 & _ & H4). unfold cst_holds, satisfies_line. rewrite (line_cst_sum V q l H1) by (intros c Hc; apply HV, H2, Hc).
    cbn [cst_of_line k_op k_value]. rewrite one_value, H4. destruct (ql_equal l); reflexivity. }
  split.
  - intros H l Hl. apply E; [exact Hl|]. apply H. apply in_map. exact Hl.
  - intros H k Hk. apply in_map_iff in Hk. destruct Hk as (l & <- & Hl). apply E; [exact Hl|]. apply H, Hl.
Qed.

Lemma doc_variable n nm : In nm (board_names n) -> variable_of dn (doc n) nm = mk_variable_value 0 1 vt_binary.
Proof.
  intros H. unfold variable_of, doc. cbn [dc_bounds dc_binary dc_general section_list find].
  assert (E : mem nm (map cell_name (qm_binary (n_queens_body n))) = true) by (apply mem_In; exact H). rewrite E. reflexivity.
Qed.
Lemma doc_feasible cost n X : 3 <= n <= int_max ->
  (feasible X (to_problem cost (meaning dn minimize (doc n))) <-> n_queens_placement n (fun i j => X (cell_number n i j))).
Proof.
  intros Hn. rewrite (feasible_satisfies dn cost minimize (doc n) X (fun nm => X (position nm (document_names (doc n))))) by (intros nm _; reflexivity).
  apply doc_satisfies; [exact Hn|]. intros [i j] [Hi Hj]. cbn [fst snd] in *. rewrite doc_names by exact Hn. rewrite names_position by lia. reflexivity.
Qed.
Lemma text_read n fuel : 3 <= n <= int_max -> (List.length (file_tokens (n_queens_text_body n)) <= fuel)%nat ->
  readable (n_queens_text_body n) /\ ends_plain (n_queens_text_body n) /\ file_tokens (n_queens_text_body n) = document_tokens (doc n) /\
  make_problem dn fuel (n_queens_text_body n) = P_ok (meaning dn minimize (doc n)).
Proof.
  intros Hn Hf. destruct (lexes_file _ _ (text_lexes n Hn)) as (H1 & H2 & H3). split; [exact H1|]. split; [exact H2|]. split; [exact H3|].
  apply make_problem_document; auto. apply doc_ok, Hn.
Qed.
Lemma objective_meaning n : 3 <= n <= int_max ->
  rw_objective (meaning dn minimize (doc n)) = map (fun k => (d_one dn, k)) (seq 0 (Z.to_nat (n * n))).
Proof.
  intros Hn. unfold meaning. cbn [rw_objective]. rewrite doc_names by exact Hn. unfold objective_of, doc. cbn [dc_objective]. rewrite oterms.
  assert (E : map t_var (map tm (qm_objective (n_queens_body n))) = board_names n) by (rewrite map_map; reflexivity). rewrite E.
  rewrite firsts_id by (apply board_names_NoDup; lia).
  assert (E1 : forall nm, In nm (board_names n) -> map (term_value dn) (terms_of nm (map tm (qm_objective (n_queens_body n)))) = [d_one dn]).
  { intros nm Hnm. apply in_map_iff in Hnm. destruct Hnm as (c & <- & Hc). change (cell_name c) with (t_var (tm c)). rewrite terms_of_one; [reflexivity| |].
    - rewrite E. apply board_names_NoDup. lia.
    - apply in_map. exact Hc. }
  rewrite (map_ext_in _ (fun nm => (d_one dn, position nm (board_names n)))); [|intros nm Hnm; rewrite (E1 nm Hnm); reflexivity].
  replace (Z.to_nat (n * n)) with (List.length (board_names n)) by (pose proof (names_length n); lia).
  pose proof (board_names_NoDup n ltac:(lia)) as Hnd. clear - Hnd. generalize (board_names n) Hnd. clear Hnd. intros l Hnd.
  assert (G : map (fun nm => position nm l) l = seq 0 (List.length l)).
  { apply nth_error_ext'. - rewrite map_length, seq_length. reflexivity.
    - intros k. destruct (nth_error l k) as [nm|] eqn:Ek.
      + rewrite (map_nth_error (fun nm => position nm l) _ _ Ek). assert (Hk : (k < List.length l)%nat) by (apply nth_error_Some; congruence).
        rewrite nth_error_nth' with (d := 0%nat); [|rewrite seq_length; exact Hk]. rewrite seq_nth by exact Hk. f_equal. cbn [Nat.add].
        pose proof (position_nth nm l (nth_error_In _ _ Ek)) as E'. apply (proj1 (NoDup_nth_error l) Hnd); [|congruence]. apply nth_error_Some. congruence.
      + rewrite (proj2 (nth_error_None _ _)), (proj2 (nth_error_None _ _)); [reflexivity| |]; apply nth_error_None in Ek; rewrite ?seq_length, ?map_length; lia. }
  rewrite <- G, map_map. reflexivity.
Qed.
Lemma value_meaning n : rw_value (meaning dn minimize (doc n)) = d_zero dn.
Proof. unfold meaning, doc. cbn [rw_value dc_objective]. assert (E : forall l, constants (map O_var l) = []) by (induction l; auto). rewrite E. reflexivity. Qed.
End Reading.

(** ** The tool *)
Section Tool.
Context {D : Type} (dn : dops D) (cost : D -> Z).
Hypothesis dn_one : reads_one dn.
Hypothesis cost_one : cost (d_one dn) = 1.
Hypothesis cost_zero : cost (d_zero dn) = 0.

Lemma doc_small n : 3 <= n <= int_max -> small_csts dn (doc n).
Proof.
  intros Hn. apply Forall_forall. intros k Hk. apply in_map_iff in Hk. destruct Hk as (l & <- & Hl). destruct (line_cells n l Hn Hl) as (H1 & H2 & H3 & _).
  rewrite line_terms_eq by exact H1.
  assert (E : forall m, fold_right Z.add 0 (map (fun t => Z.abs (coefficient dn t)) (map tm m)) = Z.of_nat (List.length m)).
  { induction m as [|c m IH]; [reflexivity|]. cbn [map fold_right List.length]. rewrite IH, (tm_coefficient dn dn_one). lia. }
  rewrite E. enough (K : (List.length (ql_cells l) <= Z.to_nat n)%nat) by lia.
  (* at most one cell for each row, or each column *)
  revert Hl. unfold n_queens_body. cbv zeta. cbn [qm_lines]. intros Hl.
  assert (W : forall fuel go di i j, (List.length (walk fuel go di i j) <= fuel)%nat).
  { induction fuel as [|f IH]; intros go di i j; cbn [walk]; [cbn; lia|]. destruct (go i j); cbn [List.length]; [|lia]. specialize (IH go di (i + di) (j + 1)). lia. }
  repeat (apply in_app_or in Hl; destruct Hl as [Hl|Hl]); apply in_map_iff in Hl; destruct Hl as (i & <- & Hi); cbn [ql_cells]; rewrite ?map_length, ?range_length, ?Z.sub_0_r; try lia; apply W.
Qed.
Lemma doc_nonempty n : 3 <= n -> dc_constraints (doc n) <> [].
Proof.
  intros Hn E. unfold doc in E. cbn [dc_constraints] in E. apply (f_equal (@List.length _)) in E. rewrite map_length in E. unfold n_queens_body in E. cbv zeta in E. cbn [qm_lines] in E.
  rewrite app_length, map_length, range_length in E. cbn [List.length] in E. lia.
Qed.
Lemma doc_bounds n V : 3 <= n <= int_max -> within_bounds dn V (doc n).
Proof. intros Hn nm Hnm. rewrite doc_names in Hnm by exact Hn. rewrite doc_variable by exact Hnm. cbn [v_min v_max]. unfold bz. destruct (V nm); lia. Qed.
Lemma doc_objective n V q : 3 <= n <= int_max -> (forall c, on_board n c -> V (cell_name c) = q (fst c) (snd c)) -> n_queens_placement n q ->
  objective_at dn cost V (doc n) = n.
Proof.
  intros Hn HV [(l & Hl & Hc) _]. unfold objective_at.
  assert (E0 : forall l, constants (map O_var l) = []) by (induction l0; auto).
  unfold doc. cbn [dc_objective]. rewrite E0, oterms. cbn [map fold_left]. rewrite cost_zero, Z.add_0_l.
  assert (E : map t_var (map tm (qm_objective (n_queens_body n))) = board_names n) by (rewrite map_map; reflexivity). rewrite E.
  rewrite firsts_id by (apply board_names_NoDup; lia).
  assert (E1 : forall nm, In nm (board_names n) -> map (term_value dn) (terms_of nm (map tm (qm_objective (n_queens_body n)))) = [d_one dn]).
  { intros nm Hnm. apply in_map_iff in Hnm. destruct Hnm as (c & <- & Hc'). change (cell_name c) with (t_var (tm c)). rewrite terms_of_one; [reflexivity| |].
    - rewrite E. apply board_names_NoDup. lia.
    - apply in_map. exact Hc'. }
  rewrite (map_ext_in _ (fun nm => bz (V nm))); [|intros nm Hnm; rewrite (E1 nm Hnm); unfold sum_values; cbn [fold_left]; rewrite cost_one; lia].
  transitivity (Z.of_nat (List.length l)); [|exact Hc]. rewrite <- (queens_sum n q l (all_rows n (range 0 n)) Hl); [|apply rows_nodup, range_nodup|apply rows_all].
  unfold board_names. rewrite map_map.
  assert (Hall : forall c, In c (all_rows n (range 0 n)) -> on_board n c) by (intros c; apply rows_all).
  clear - HV Hall. induction (all_rows n (range 0 n)) as [|c r IH]; [reflexivity|]. cbn [map fold_right line_sum]. rewrite IH by (intros; apply Hall; right; assumption).
  rewrite HV by (apply Hall; left; reflexivity). unfold bz. destruct (q (fst c) (snd c)); reflexivity.
Qed.
(** A board as a valuation of the names. *)
Definition board_valuation (n : Z) (q : board) : valuation :=
  fun nm => match nth_error (all_rows n (range 0 n)) (position nm (board_names n)) with Some c => q (fst c) (snd c) | None => false end.
Lemma board_valuation_at n q c : n <= int_max -> on_board n c -> board_valuation n q (cell_name c) = q (fst c) (snd c).
Proof.
  intros Hn Hc. destruct c as [i j]. destruct Hc as [Hi Hj]. cbn [fst snd] in *. unfold board_valuation. rewrite names_position by assumption. rewrite rows_nth by assumption. reflexivity.
Qed.
End Tool.
