(** The numbers of [xdops] are printed and read back. *)
From Coq Require Import Ascii String QArith Qround Qcanon Lia.
From Verif Require Import Lexer_proofs Base Problem_model ResultIO_model Chars_spec Lexer_model Lexer_spec Parser_model Parser_spec Parser_proofs Parser_concrete Writer_model Writer_spec Writer_proofs.
Open Scope string_scope.
Open Scope list_scope.
Open Scope nat_scope.

Lemma digit_back z : (0 <= z < 10)%Z -> digit (digit_char z) = Some z.
Proof.
  intros H. assert (Hz : z = 0%Z \/ z = 1%Z \/ z = 2%Z \/ z = 3%Z \/ z = 4%Z \/ z = 5%Z \/ z = 6%Z \/ z = 7%Z \/ z = 8%Z \/ z = 9%Z) by lia.
  repeat (destruct Hz as [->|Hz]; [ reflexivity |]). subst z. reflexivity.
Qed.
Lemma take_digits_app : forall a b, snd (take_digits a) = [] -> take_digits (a ++ b) = (fst (take_digits a) ++ fst (take_digits b), snd (take_digits b)).
Proof.
  induction a as [ |c a IH ]; intros b H; cbn [app]; [ destruct (take_digits b); reflexivity |]. cbn [take_digits] in *. destruct (digit c); [ | discriminate ].
  destruct (take_digits a) as [ds r] eqn:E. cbn [snd fst] in *. rewrite (IH b H). reflexivity.
Qed.
Lemma take_show : forall n z, (0 <= z < 10 ^ Z.of_nat n)%Z -> snd (take_digits (show_digits n z)) = [] /\ number (fst (take_digits (show_digits n z))) = z.
Proof.
  induction n as [ |n IH ]; intros z Hz; [ cbn in *; split; [ reflexivity |]; unfold number; cbn; lia |]. cbn [show_digits].
  destruct (Z.ltb_spec z 10).
  - cbn [take_digits]. rewrite digit_back by lia. split; [ reflexivity |]. unfold number. cbn [fst fold_left]. lia.
  - pose proof (Z.mod_pos_bound z 10 ltac:(lia)) as Hm. destruct (IH (z / 10)%Z) as [H1 H2].
    { rewrite Nat2Z.inj_succ, Z.pow_succ_r in Hz by lia. split; [ apply Z.div_pos; lia | apply Z.div_lt_upper_bound; lia ]. }
    rewrite (take_digits_app _ _ H1). cbn [take_digits]. rewrite digit_back by lia. cbn [fst snd]. split; [ reflexivity |].
    unfold number in *. rewrite fold_left_app, H2. cbn [fold_left]. pose proof (Z.div_mod z 10 ltac:(lia)). lia.
Qed.
Lemma Qred_Z z : Qred (inject_Z z) = inject_Z z.
Proof. apply Qred_identity. cbn. apply Z.gcd_1_r. Qed.
Lemma digit_start c r : is_digit c = true -> starts_as (c :: r) "inf" = false /\ starts_as (c :: r) "nan" = false /\ Ascii.eqb c "-" = false /\ Ascii.eqb c "+" = false.
Proof.
  intros H. pose proof (all_chars (fun c => implb (is_digit c) (negb (Ascii.eqb (tolower c) "i") && negb (Ascii.eqb (tolower c) "n") && negb (Ascii.eqb c "-") && negb (Ascii.eqb c "+"))) ltac:(vm_compute; reflexivity) c) as E.
  cbv beta in E. rewrite H in E. cbn [implb] in E. repeat (apply andb_prop in E; destruct E as [E ?]). unfold starts_as. cbn [str list_ascii_of_string length firstn are_equal].
  change (tolower "i") with "i"%char. change (tolower "n") with "n"%char.
  destruct (Ascii.eqb (tolower c) "i"), (Ascii.eqb (tolower c) "n"), (Ascii.eqb c "-"), (Ascii.eqb c "+"); try discriminate. auto.
Qed.
Lemma scan_show z : (0 <= z < 10 ^ 20)%Z -> x_scan (show_digits 20 z) = Some (X_num (inject_Z z)).
Proof.
  intros Hz. destruct (take_show 20 z Hz) as [H1 H2]. destruct (show_digits_facts 20 z ltac:(lia)) as [F1 [_ F3]].
  destruct (show_digits 20 z) as [ |c r ] eqn:E; [ exfalso; apply F3; [ lia | reflexivity ] |]. cbn [forallb] in F1. apply andb_prop in F1. destruct F1 as [F1 _].
  destruct (digit_start c r F1) as [D1 [D2 [D3 D4]]]. unfold x_scan. rewrite D3, D4. unfold scan_unsigned. rewrite D1, D2.
  destruct (take_digits (c :: r)) as [ds rest] eqn:Et. cbn [fst snd] in H1, H2. subst rest. rewrite app_nil_r.
  destruct ds as [ |d ds ].
  { exfalso. cbn [take_digits] in Et. pose proof (all_chars (fun c => implb (is_digit c) (match digit c with Some _ => true | None => false end)) ltac:(vm_compute; reflexivity) c) as Ed.
    cbv beta in Ed. rewrite F1 in Ed. cbn [implb] in Ed. destruct (digit c); [ destruct (take_digits r); discriminate | discriminate ]. }
  rewrite H2. cbn [length scan_exponent]. change (0 - Z.of_nat 0)%Z with 0%Z. change (pow10 0) with 1%Q. do 2 f_equal.
  rewrite (Qred_complete _ (inject_Z z)) by apply Qmult_1_r. apply Qred_Z.
Qed.
Lemma signed_show z : (- 10 ^ 20 < z < 10 ^ 20)%Z -> signed_value xdops (signed_int z) = X_num (inject_Z z).
Proof.
  intros H. unfold signed_value, signed_int, value_of. cbn [s_sign s_num]. change (d_scan xdops) with x_scan. rewrite scan_show by lia.
  destruct (Z.ltb_spec z 0); cbn [with_sign].
  - cbn [xdops d_neg x_neg]. rewrite Z.abs_neq by lia. f_equal. replace (Qopp (inject_Z (- z))) with (inject_Z z) by (unfold Qopp, inject_Z; cbn [Qnum Qden]; rewrite Z.opp_involutive; reflexivity). apply Qred_Z.
  - rewrite Z.abs_eq by lia. reflexivity.
Qed.
Lemma x_int_Z z : (int_min <= z <= int_max)%Z -> x_int (X_num (inject_Z z)) = Some z.
Proof.
  intros H. unfold x_int. rewrite Qfloor_Z, Qceiling_Z. replace (if Qle_bool 0 (inject_Z z) then z else z) with z by (destruct (Qle_bool _ _); reflexivity).
  replace ((int_min <=? z)%Z && (z <=? int_max)%Z)%bool with true; [ reflexivity |]. symmetry. apply andb_true_intro. split; apply Z.leb_le; lia.
Qed.
(** Every int, and every integer double of fewer than 20 digits other than 0. *)
Theorem int_printed_all z : (int_min <= z <= int_max)%Z -> int_printed xdops z.
Proof.
  intros H. unfold int_min, int_max in H. split.
  - change (d_scan xdops) with x_scan. rewrite scan_show by lia. discriminate.
  - rewrite signed_show by lia. apply x_int_Z. unfold int_min, int_max. lia.
Qed.
Theorem bound_printed_all z : (int_min <= z <= int_max)%Z -> bound_printed xdops z.
Proof.
  intros H. split; [ apply int_printed_all, H |]. unfold int_min, int_max in H. rewrite signed_show by lia. split; [ | split; reflexivity ].
  unfold int_ok. cbn [xdops d_int]. rewrite x_int_Z; [ discriminate | unfold int_min, int_max; lia ].
Qed.
Theorem printed_all z : (- 10 ^ 20 < z < 10 ^ 20)%Z -> z <> 0%Z -> printed xdops (X_num (inject_Z z)).
Proof.
  intros H Hz. unfold printed. cbn [xdops d_gt d_zero d_show x_gt].
  assert (Hd : x_show (X_num (inject_Z z)) = show_int z) by (unfold x_show; rewrite Qred_Z; reflexivity). rewrite Hd, show_int_eq.
  assert (Hnum : number_text xdops (show_digits 20 (Z.abs z))).
  { destruct (show_digits_facts 20 (Z.abs z) ltac:(lia)) as [F1 [F2 F3]]. split.
    - split; [ | split; [ lia |] ].
      + destruct (show_digits 20 (Z.abs z)) as [ |c r ]; [ exfalso; apply F3; [ lia | reflexivity ] |]. exists c, r. split; [ reflexivity |]. chars. cbn [forallb] in F1. apply andb_prop in F1. destruct F1 as [-> _]. reflexivity.
      + cbn [xdops d_scan]. rewrite scan_show by lia. discriminate.
    - eapply forallb_imp; [ | exact F1 ]. intros a Ha. chars. rewrite Ha. reflexivity. }
  pose proof (signed_show z H) as Hs. unfold signed_value, signed_int in Hs. cbn [s_sign s_num] in Hs.
  assert (Hlt : negb (Qle_bool 0 (inject_Z z)) = (z <? 0)%Z). { unfold Qle_bool. cbn. rewrite Z.mul_1_r, Z.leb_antisym, negb_involutive. reflexivity. }
  rewrite Hlt. destruct (Z.ltb_spec z 0).
  - eexists. split; [ reflexivity |]. split; [ exact Hnum | exact Hs ].
  - split; [ | split; [ exact Hnum | exact Hs ] ]. unfold Qle_bool. cbn. rewrite Z.mul_1_r. destruct (Z.leb_spec z 0); [ lia | reflexivity ].
Qed.
Lemma xdops_ok : dops_ok xdops. Proof. repeat split. Qed.
