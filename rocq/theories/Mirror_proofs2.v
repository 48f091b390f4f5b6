(** IEEE 754 numbers have opposites. *)
From Coq Require Import SpecFloat.
From Verif Require Import Base Problem_model Merged_model Rows_model Solver_model Mirror_spec Mirror_proofs.
Open Scope Z_scope.

Section Float.
Variables prec emax : Z.
Lemma round_aux_opp s m e l : float_opp (binary_round_aux prec emax s m e l) (binary_round_aux prec emax (negb s) m e l).
Proof.
  unfold binary_round_aux. destruct (shr_fexp prec emax m e l) as [r1 e1]. destruct (shr_fexp prec emax _ e1 loc_Exact) as [r2 e2].
  destruct (shr_m r2); cbn; [exact I| |exact I]. destruct (Zle_bool e2 (emax - prec)); cbn; auto.
Qed.
Lemma round_opp s m e : float_opp (binary_round prec emax s m e) (binary_round prec emax (negb s) m e).
Proof. unfold binary_round. destruct (shl_align _ _ _). apply round_aux_opp. Qed.
Lemma normalize_opp m e z z' : float_opp (binary_normalize prec emax m e z) (binary_normalize prec emax (- m) e z').
Proof. destruct m; cbn [binary_normalize Z.opp]; [exact I|apply (round_opp false)|apply (round_opp true)]. Qed.
Lemma cond_Zopp_negb s m : cond_Zopp (negb s) m = - cond_Zopp s m.
Proof. destruct s; cbn; lia. Qed.
Lemma add_opp a a' b b' : float_opp a a' -> float_opp b b' -> float_opp (SFadd prec emax a b) (SFadd prec emax a' b').
Proof.
  destruct a as [s|s| |s m e], a' as [s'|s'| |s' m' e'], b as [t|t| |t n f], b' as [t'|t'| |t' n' f']; cbn [float_opp]; intros Ha Hb; try contradiction; cbn [SFadd float_opp]; auto.
  - destruct (Bool.eqb s t), (Bool.eqb s' t'); exact I.
  - subst. destruct s, t; cbn; auto.
  - destruct Ha as (-> & -> & ->), Hb as (-> & -> & ->). cbv zeta. rewrite !cond_Zopp_negb, <- Z.opp_add_distr. apply normalize_opp.
Qed.
Lemma sub_opp a a' b b' : float_opp a a' -> float_opp b b' -> float_opp (SFsub prec emax a b) (SFsub prec emax a' b').
Proof.
  destruct a as [s|s| |s m e], a' as [s'|s'| |s' m' e'], b as [t|t| |t n f], b' as [t'|t'| |t' n' f']; cbn [float_opp]; intros Ha Hb; try contradiction; cbn [SFsub float_opp]; auto.
  - destruct (Bool.eqb s (negb t)), (Bool.eqb s' (negb t')); exact I.
  - now subst.
  - destruct Hb as (-> & -> & ->). auto.
  - subst. destruct s, t; cbn; auto.
  - now subst.
  - destruct Ha as (-> & -> & ->), Hb as (-> & -> & ->). cbv zeta. rewrite !cond_Zopp_negb.
    match goal with |- float_opp (binary_normalize _ _ (?u - ?v) _ _) _ => replace (- u - - v) with (- (u - v)) by lia end. apply normalize_opp.
Qed.
Lemma neg_opp a a' : float_opp a a' -> float_opp (SFopp a) (SFopp a').
Proof. destruct a as [s|s| |s m e], a' as [s'|s'| |s' m' e']; cbn; try tauto; [now intros ->|intros (-> & -> & ->); auto]. Qed.
Lemma xorb_negb_r s t : xorb s (negb t) = negb (xorb s t).
Proof. destruct s, t; reflexivity. Qed.
Lemma xorb_negb_l s t : xorb (negb s) t = negb (xorb s t).
Proof. destruct s, t; reflexivity. Qed.
Lemma mul_opp_l k a a' : float_opp a a' -> float_opp (SFmul prec emax k a) (SFmul prec emax k a').
Proof.
  destruct a as [s|s| |s m e], a' as [s'|s'| |s' m' e'], k as [t|t| |t n f]; cbn [float_opp]; intros Ha; try contradiction; cbn [SFmul float_opp]; auto.
  all: try (subst; now rewrite xorb_negb_r). all: destruct Ha as (-> & -> & ->); auto. all: rewrite xorb_negb_r; auto. apply round_aux_opp.
Qed.
Lemma mul_opp_r k a a' : float_opp a a' -> float_opp (SFmul prec emax a k) (SFmul prec emax a' k).
Proof.
  destruct a as [s|s| |s m e], a' as [s'|s'| |s' m' e'], k as [t|t| |t n f]; cbn [float_opp]; intros Ha; try contradiction; cbn [SFmul float_opp]; auto.
  all: try (subst; now rewrite xorb_negb_l). all: destruct Ha as (-> & -> & ->); auto. all: rewrite xorb_negb_l; auto. apply round_aux_opp.
Qed.
Lemma div_opp k a a' : float_opp a a' -> float_opp (SFdiv prec emax a k) (SFdiv prec emax a' k).
Proof.
  destruct a as [s|s| |s m e], a' as [s'|s'| |s' m' e'], k as [t|t| |t n f]; cbn [float_opp]; intros Ha; try contradiction; cbn [SFdiv float_opp]; auto.
  all: try (subst; now rewrite xorb_negb_l). all: destruct Ha as (-> & -> & ->); auto. all: rewrite xorb_negb_l; auto.
  destruct (SFdiv_core_binary prec emax (Z.pos m') e' (Z.pos n) f) as [[mz ez] lz]. apply round_aux_opp.
Qed.
Lemma compare_opp a a' b b' : float_opp a a' -> float_opp b b' -> SFcompare a b = SFcompare b' a'.
Proof.
  destruct a as [s|s| |s m e], a' as [s'|s'| |s' m' e'], b as [t|t| |t n f], b' as [t'|t'| |t' n' f']; cbn [float_opp]; intros Ha Hb; try contradiction; cbn [SFcompare]; auto.
  all: try (subst; try (destruct s); try (destruct t); reflexivity).
  all: try (destruct Hb as (-> & -> & ->); subst; try (destruct s); try (destruct t); reflexivity).
  all: try (destruct Ha as (-> & -> & ->); subst; try (destruct s); try (destruct t); reflexivity).
  destruct Ha as (-> & -> & ->), Hb as (-> & -> & ->). destruct s, t; cbn [negb]; auto; f_equal.
  - rewrite (Z.compare_antisym f' e'). destruct (f' ?= e'); cbn [CompOpp]; auto. now rewrite (Pos.compare_cont_antisym _ _ Eq).
  - rewrite (Z.compare_antisym f' e'). destruct (f' ?= e'); cbn [CompOpp]; auto. now rewrite (Pos.compare_cont_antisym _ _ Eq).
Qed.
Lemma float_symmetric of_Z signbit pow worst : (exists s, of_Z 0 = S754_zero s) ->
  symmetric (mk_fops spec_float of_Z (SFadd prec emax) (SFsub prec emax) (SFmul prec emax) (SFdiv prec emax) SFopp SFltb SFeqb signbit pow worst) float_opp.
Proof.
  intros [s Hz]. split; cbn [fl_of_Z fl_add fl_sub fl_mul fl_div fl_neg fl_lt fl_eqb].
  - now rewrite Hz.
  - intros; now apply add_opp.
  - intros; now apply sub_opp.
  - intros; now apply neg_opp.
  - intros; now apply mul_opp_l.
  - intros; now apply mul_opp_r.
  - intros; now apply div_opp.
  - intros a a' b b' Ha Hb. unfold SFltb. now rewrite (compare_opp a a' b b').
  - intros a a' b b' Ha Hb. unfold SFeqb.
    assert (E : SFcompare a' b' = match SFcompare a b with Some c => Some (CompOpp c) | None => None end).
    { rewrite (compare_opp a a' b b' Ha Hb). clear. destruct a' as [s'|s'| |s' m' e'], b' as [t'|t'| |t' n' f']; cbn; auto; try (destruct s'; reflexivity); try (destruct t'; reflexivity).
      - destruct s', t'; reflexivity.
      - destruct s', t'; cbn; auto; f_equal; rewrite (Z.compare_antisym f' e'); destruct (f' ?= e'); cbn [CompOpp]; auto;
          rewrite (Pos.compare_cont_antisym n' m' Eq); cbn [CompOpp]; now rewrite ?CompOpp_involutive. }
    rewrite E. destruct (SFcompare a b) as [[| |]|]; reflexivity.
Qed.
End Float.
