(** Proofs about solution files. *)
From Coq Require Import Ascii.
From Verif Require Import Base Problem_model Problem_spec Preprocess_spec Classify_model Validate_model Validate_spec Validate_proofs
  ResultIO_model ResultIO_spec.

Lemma isspace_blank c : isspace c = true <-> blank c.
Proof.
  unfold isspace, blank. rewrite Bool.orb_true_iff, Bool.andb_true_iff, Nat.eqb_eq, !Nat.leb_le. cbn [In]. lia.
Qed.
Lemma read_loop_line l : forall buf rest acc, ~ In newline l ->
  read_loop (l ++ nl :: rest) buf acc = (let! acc' := read_line (buf ++ l) acc in read_loop rest [] acc').
Proof.
  induction l as [|c l IH]; intros buf rest acc Hn; cbn [app read_loop].
  - rewrite Ascii.eqb_refl, app_nil_r. reflexivity.
  - destruct (Ascii.eqb_spec c nl) as [->|Hc]; [exfalso; apply Hn; left; reflexivity|].
    rewrite IH by (intros H; apply Hn; right; assumption). rewrite <- app_assoc. reflexivity.
Qed.
Lemma skip_spaces_comment b r : Forall blank b -> skip_spaces (b ++ backslash :: r) = backslash :: r.
Proof.
  induction 1 as [|c b Hc _ IH]; [reflexivity|]. cbn [app skip_spaces]. apply isspace_blank in Hc. rewrite Hc. exact IH.
Qed.
Lemma skip_spaces_split l : exists b, l = b ++ skip_spaces l /\ Forall blank b.
Proof.
  induction l as [|c l (b & Hb & Hf)]; [exists []; split; [reflexivity|constructor]|].
  cbn [skip_spaces]. destruct (isspace c) eqn:E.
  - exists (c :: b). split; [cbn [app]; congruence|]. constructor; [apply isspace_blank; assumption|assumption].
  - exists []. split; [reflexivity|constructor].
Qed.
Lemma read_comment l acc : comment_line l -> read_line l acc = Ok acc.
Proof.
  intros (_ & b & r & -> & Hb). unfold read_line. change (ascii_of_nat 92) with backslash.
  rewrite skip_spaces_comment by assumption. rewrite Ascii.eqb_refl. reflexivity.
Qed.
Lemma find_equal_ok nm r : ~ In (ascii_of_nat 61) nm -> find_equal (nm ++ equal_sign :: r) = Some (nm, r).
Proof.
  induction nm as [|c nm IH]; intros H; cbn [app find_equal].
  - rewrite Ascii.eqb_refl. reflexivity.
  - destruct (Ascii.eqb_spec c equal_sign) as [->|Hc]; [exfalso; apply H; left; reflexivity|].
    rewrite IH by (intros G; apply H; right; assumption). reflexivity.
Qed.
Lemma not_comment nm r : writable_name nm ->
  match skip_spaces (nm ++ equal_sign :: r) with c :: _ => Ascii.eqb c backslash | [] => false end = false.
Proof.
  intros (_ & _ & Hc).
  assert (H : forall nm, (~ exists b r, nm = b ++ ascii_of_nat 92 :: r /\ Forall blank b) ->
     match skip_spaces (nm ++ equal_sign :: r) with c :: _ => Ascii.eqb c backslash | [] => false end = false).
  { clear. induction nm as [|c nm IH]; intros Hc; cbn [app skip_spaces].
    - reflexivity.
    - destruct (isspace c) eqn:E.
      + apply IH. intros (b & r' & Heq & Hb). apply Hc. exists (c :: b), r'. split; [rewrite Heq; reflexivity|].
        constructor; [apply isspace_blank; assumption|assumption].
      + destruct (Ascii.eqb_spec c backslash) as [->|]; [|reflexivity].
        exfalso. apply Hc. exists [], nm. split; [reflexivity|constructor]. }
  exact (H nm Hc).
Qed.
Lemma read_value nm b acc : writable_name nm ->
  read_line (nm ++ equal_sign :: [value_char b]) acc = Ok (fst acc ++ [nm], snd acc ++ [b]).
Proof.
  intros H. unfold read_line. rewrite not_comment by assumption. rewrite find_equal_ok by apply H.
  destruct b; reflexivity.
Qed.

Lemma read_header header rest acc : Forall comment_line header ->
  read_loop (concat (map (fun l => l ++ [nl]) header) ++ rest) [] acc = read_loop rest [] acc.
Proof.
  induction 1 as [|l header Hl _ IH]; [reflexivity|]. cbn [map concat]. rewrite <- !app_assoc. cbn [app].
  rewrite read_loop_line by apply Hl. cbn [app]. rewrite read_comment by assumption. cbn [obind]. exact IH.
Qed.
Lemma read_values names : forall values rest acc out, Forall writable_name names -> length names = length values ->
  value_lines names values = Some out ->
  read_loop (out ++ rest) [] acc = read_loop rest [] (fst acc ++ names, snd acc ++ values).
Proof.
  induction names as [|nm names IH]; intros values rest acc out Hn Hl Ho; destruct values as [|b values]; try discriminate.
  - inversion Ho; subst. rewrite !app_nil_r. destruct acc; reflexivity.
  - cbn [value_lines] in Ho. destruct (value_lines names values) as [r|] eqn:E; cbn [bind] in Ho; [|discriminate].
    inversion Ho; subst. inversion Hn as [|? ? Hnm Hn']; subst. unfold value_line.
    rewrite <- !app_assoc. cbn [app].
    change (nm ++ equal_sign :: value_char b :: nl :: r ++ rest) with (nm ++ (equal_sign :: [value_char b]) ++ nl :: r ++ rest).
    rewrite app_assoc, read_loop_line.
    + cbn [app]. rewrite read_value by assumption. cbn [obind].
      rewrite (IH values rest _ r Hn' ltac:(cbn in Hl; lia) E). cbn [fst snd]. rewrite <- !app_assoc. reflexivity.
    + intros H. apply in_app_or in H. destruct H as [H|H]; [apply (proj1 Hnm H)|].
      destruct b; cbn in H; destruct H as [H|[H|[]]]; discriminate H.
Qed.
Lemma value_lines_some names : forall values, length names = length values -> exists out, value_lines names values = Some out.
Proof.
  induction names as [|nm names IH]; intros values Hl; destruct values as [|b values]; try discriminate; [cbn; eauto|].
  destruct (IH values ltac:(cbn in Hl; lia)) as [o Ho]. cbn [value_lines]. rewrite Ho. cbn. eauto.
Qed.

Lemma round_trip header r : Forall comment_line header -> proper_result r ->
  Forall writable_name (a_names (r_affected r)) -> Forall writable_name (r_names r) ->
  exists out s, write_result header r = Ok out /\ r_last r = Some s /\
    read_result out = Ok (mk_result (mk_affected [] []) (a_names (r_affected r) ++ r_names r)
                            [mk_solution (a_values (r_affected r) ++ sl_variables s) 0] st_success).
Proof.
  intros Hh (Hst & (s & Hs & Hl) & Hla & Hnd) Ha Hn.
  destruct (value_lines_some (a_names (r_affected r)) _ Hla) as [oa Hoa].
  destruct (value_lines_some (r_names r) _ (eq_sym Hl)) as [ob Hob].
  unfold write_result. rewrite Hst, Hs, Hoa, Hob. cbn [of_opt obind].
  eexists _, s. split; [reflexivity|]. split; [reflexivity|].
  unfold read_result. rewrite read_header by assumption.
  rewrite (read_values _ _ _ _ _ Ha Hla Hoa).
  rewrite <- (app_nil_r ob), (read_values _ _ _ _ _ Hn (eq_sym Hl) Hob). reflexivity.
Qed.

Lemma read_describes r s pb x : proper_result r -> r_last r = Some s -> describes r pb x ->
  let r' := mk_result (mk_affected [] []) (a_names (r_affected r) ++ r_names r)
              [mk_solution (a_values (r_affected r) ++ sl_variables s) 0] st_success in
  proper_result r' /\ describes r' pb x.
Proof.
  intros (Hst & (s' & Hs' & Hl) & Hla & Hnd) Hs (Hn & Hg). rewrite Hs in Hs'. inversion Hs'; subst s'. cbv zeta. split.
  - split; [reflexivity|]. split; [|split; [reflexivity|]].
    + eexists. split; [reflexivity|]. cbn. rewrite !app_length. lia.
    + cbn. rewrite app_nil_r. eapply Permutation_NoDup; [apply Permutation_app_comm|assumption].
  - split; [cbn; rewrite app_length; lia|]. intros i nm Hi. left.
    destruct (Hg i nm Hi) as [(s' & k & Hs2 & Hk & Hb)|(k & Hk & Hb)].
    + rewrite Hs in Hs2. inversion Hs2; subst s'.
      exists (mk_solution (a_values (r_affected r) ++ sl_variables s) 0), (length (a_names (r_affected r)) + k)%nat.
      split; [reflexivity|]. cbn [r_names sl_variables]. rewrite !nth_error_app2 by lia. rewrite Hla.
      replace (length (a_values (r_affected r)) + k - length (a_values (r_affected r)))%nat with k by lia. auto.
    + exists (mk_solution (a_values (r_affected r) ++ sl_variables s) 0), k.
      split; [reflexivity|]. cbn [r_names sl_variables]. rewrite !nth_error_app1; auto; apply nth_error_Some; congruence.
Qed.

(** A line without '=' that is not a comment is rejected. *)
Lemma find_equal_none l : ~ In (ascii_of_nat 61) l -> find_equal l = None.
Proof.
  induction l as [|c l IH]; intros H; [reflexivity|]. cbn [find_equal].
  destruct (Ascii.eqb_spec c equal_sign) as [->|]; [exfalso; apply H; left; reflexivity|].
  rewrite IH; [reflexivity|]. intros G; apply H; right; assumption.
Qed.
Lemma read_bad_line l acc : ~ comment_line l -> ~ In newline l -> ~ In (ascii_of_nat 61) l -> read_line l acc = Throw.
Proof.
  intros Hc Hn He. unfold read_line. rewrite find_equal_none by assumption.
  destruct (skip_spaces l) as [|c r] eqn:E; [reflexivity|]. destruct (Ascii.eqb_spec c backslash) as [->|]; [|reflexivity].
  exfalso. apply Hc. split; [assumption|]. destruct (skip_spaces_split l) as (b & Hb & Hf). rewrite E in Hb.
  exists b, r. split; assumption.
Qed.
Lemma read_loop_app_throw pre l post : forall buf acc, ~ comment_line l -> ~ In newline l -> ~ In (ascii_of_nat 61) l ->
  (exists p, pre = p ++ [nl]) ->
  read_loop (pre ++ l ++ nl :: post) buf acc = Throw.
Proof.
  induction pre as [|c pre IH]; intros buf acc Hc Hn He [p Hp]; [destruct p; discriminate|].
  cbn [app read_loop]. destruct (Ascii.eqb_spec c nl) as [->|Hne].
  - destruct (read_line buf acc) as [acc'| |] eqn:E; cbn [obind]; try reflexivity.
    + destruct pre as [|c' pre'].
      * cbn [app]. rewrite read_loop_line by assumption. cbn [app]. rewrite read_bad_line by assumption. reflexivity.
      * apply IH; try assumption. destruct p as [|c0 p]; [discriminate|]. exists p. exact (f_equal (@tl ascii) Hp).
    + unfold read_line in E. destruct (match skip_spaces buf with c :: _ => _ | [] => _ end); [discriminate|].
      destruct (find_equal buf) as [[a b]|]; [|discriminate]. destruct (to_int b); discriminate.
  - apply IH; try assumption. destruct p as [|c0 p]; [cbn [app] in Hp; congruence|]. exists p. exact (f_equal (@tl ascii) Hp).
Qed.
