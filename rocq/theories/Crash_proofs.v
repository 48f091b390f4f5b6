(** Proofs about interrupted runs. *)
From Coq Require Import String Ascii.
From Verif Require Import Base Problem_model Problem_spec Classify_model Preprocess_model Preprocess_spec Validate_model Validate_spec Validate_proofs
  ResultIO_model ResultIO_spec ResultIO_proofs Lexer_model Parser_model Writer_model
  Parser_proofs Solver_model EndToEnd_model Main_model Main_spec Main_proofs Params_model Dynarray_model Bench_model Crash_model Crash_spec.
Open Scope nat_scope.
Open Scope list_scope.

(** ** First parts of a text *)
Lemma cut_app (p a b : text) : cut p (a ++ b) -> cut p a \/ exists p', p = a ++ p' /\ cut p' b.
Proof.
  revert p. induction a as [|c a IH]; intros p [r Hr].
  - right. exists p. split; [reflexivity|]. exists r. exact Hr.
  - destruct p as [|c' p].
    + left. exists (c :: a). reflexivity.
    + cbn [app] in Hr. injection Hr as -> Hr. destruct (IH p) as [[q Hq]|(p' & -> & Hp')]; [exists r; exact Hr| |].
      * left. exists q. rewrite Hq. reflexivity.
      * right. exists p'. split; [reflexivity|assumption].
Qed.
Lemma cut_cons c (p l : text) : cut p (c :: l) -> p = [] \/ exists p', p = c :: p' /\ cut p' l.
Proof.
  intros [r Hr]. destruct p as [|c' p]; [left; reflexivity|]. right. injection Hr as -> Hr. exists p. split; [reflexivity|]. exists r. exact Hr.
Qed.
Lemma cut_nil (p : text) : cut p [] -> p = [].
Proof. intros [r Hr]. symmetry in Hr. apply app_eq_nil in Hr. tauto. Qed.
Lemma cut_refl (p : text) : cut p p.
Proof. exists []. rewrite app_nil_r. reflexivity. Qed.
Lemma cut_trans (a b c : text) : cut a b -> cut b c -> cut a c.
Proof. intros [r ->] [s ->]. exists (r ++ s). rewrite app_assoc. reflexivity. Qed.
Lemma cut_more (a b c : text) : cut a b -> cut a (b ++ c).
Proof. intros H. eapply cut_trans; [exact H|]. exists c. reflexivity. Qed.
Lemma cut_not_in c (p l : text) : cut p l -> ~ In c l -> ~ In c p.
Proof. intros [r ->] H K. apply H, in_or_app. left. exact K. Qed.

(** ** Reading a file that is cut *)
Lemma read_end l : forall buf acc, ~ In newline l -> buf ++ l <> [] -> read_loop l buf acc = read_line (buf ++ l) acc.
Proof.
  induction l as [|c l IH]; intros buf acc Hn Hne; cbn [read_loop].
  - rewrite app_nil_r in *. destruct buf; [contradiction|reflexivity].
  - destruct (Ascii.eqb_spec c nl) as [->|Hc]; [exfalso; apply Hn; left; reflexivity|].
    rewrite IH; [rewrite <- app_assoc; reflexivity|intros H; apply Hn; right; exact H|destruct buf; discriminate].
Qed.
Lemma cut_not_comment nm p : cut p nm -> writable_name nm -> ~ comment_line p.
Proof.
  intros [r ->] (_ & _ & H) (_ & b & q & -> & Hb). apply H. exists b, (q ++ r). split; [rewrite <- app_assoc; reflexivity|exact Hb].
Qed.
Lemma read_no_value nm acc : writable_name nm -> read_line (nm ++ [equal_sign]) acc = Ok (fst acc ++ [nm], snd acc ++ [false]).
Proof.
  intros H. unfold read_line. rewrite (not_comment nm []) by assumption. rewrite (find_equal_ok nm []) by apply H. reflexivity.
Qed.
Lemma line_split nm b : value_is nm b = nm ++ equal_sign :: [value_char b].
Proof. rewrite <- value_is_char. reflexivity. Qed.
Lemma as_file_cons l ls : as_file (l :: ls) = l ++ nl :: as_file ls.
Proof. unfold as_file. cbn [map List.concat]. rewrite <- app_assoc. reflexivity. Qed.

(** What is read of a cut list of value lines: the first names, with their values, but for a value that is
    missing after the sign and is taken for 0. *)
Definition cut_reading (names : list text) (values : list bool) (p : text) (acc : list text * list bool) : Prop :=
  read_loop p [] acc = Throw \/
  exists k vs, read_loop p [] acc = Ok (fst acc ++ firstn k names, snd acc ++ vs) /\ k <= List.length names /\
    ((vs = firstn k values /\ (k = List.length names -> names <> [] -> forall r, as_file (map line_of (combine names values)) = p ++ r -> r = [] \/ r = [nl])) \/
     exists k0 nm, k = S k0 /\ vs = firstn k0 values ++ [false] /\ nth_error names k0 = Some nm /\
       p = as_file (map line_of (combine (firstn k0 names) (firstn k0 values))) ++ nm ++ [equal_sign]).
Lemma cut_values names : forall values p acc, Forall writable_name names -> List.length names = List.length values ->
  cut p (as_file (map line_of (combine names values))) -> cut_reading names values p acc.
Proof.
  induction names as [|nm names IH]; intros values p acc Hn Hl Hc; destruct values as [|b values]; try discriminate.
  - apply cut_nil in Hc. subst p. right. exists 0, []. cbn. rewrite !app_nil_r. split; [destruct acc; reflexivity|]. split; [lia|]. left. split; [reflexivity|]. intros _ K. exfalso; auto.
  - inversion Hn as [|? ? Hw Hn']; subst. cbn [combine map] in Hc. rewrite as_file_cons in Hc. change (line_of (nm, b)) with (value_is nm b) in Hc. rewrite line_split, <- app_assoc in Hc.
    assert (Hnn : ~ In newline (nm ++ equal_sign :: [value_char b])).
    { intros H. apply in_app_or in H. destruct H as [H|H]; [apply (proj1 Hw H)|]. destruct b; cbn in H; destruct H as [H|[H|[]]]; discriminate H. }
    destruct (cut_app _ _ _ Hc) as [Hp|(p1 & -> & Hp1)].
    + (* inside the name *)
      destruct p as [|c p].
      * right. exists 0, []. cbn [read_loop firstn]. rewrite !app_nil_r. split; [destruct acc; reflexivity|]. split; [lia|]. left. split; [reflexivity|]. cbn. lia.
      * left. assert (Hni : ~ In newline (c :: p)) by (eapply cut_not_in; [exact Hp|apply Hw]).
        rewrite read_end by (assumption || discriminate). cbn [app]. apply read_bad_line; [|assumption|].
        -- eapply cut_not_comment; eassumption.
        -- eapply cut_not_in; [exact Hp|apply Hw].
    + cbn [app] in Hp1. apply cut_cons in Hp1. destruct Hp1 as [->|(p2 & -> & Hp2)].
      * (* before the sign: the name only *)
        rewrite app_nil_r. destruct nm as [|c nm].
        -- right. exists 0, []. cbn [read_loop firstn]. rewrite !app_nil_r. split; [destruct acc; reflexivity|]. split; [lia|]. left. split; [reflexivity|]. cbn. lia.
        -- left. rewrite read_end by (try discriminate; apply Hw). cbn [app]. apply read_bad_line; [|apply Hw|apply Hw].
           eapply cut_not_comment; [apply cut_refl|exact Hw].
      * apply cut_cons in Hp2. destruct Hp2 as [->|(p3 & -> & Hp3)].
        -- (* after the sign *)
           right. exists 1, [false]. rewrite read_end; [|intros K; apply Hnn; apply in_app_or in K; apply in_or_app; destruct K as [K|[K|[]]]; [left; exact K|right; left; exact K]|destruct nm; discriminate].
           cbn [app]. rewrite read_no_value by assumption. split; [reflexivity|]. split; [cbn; lia|].
           right. exists 0, nm. repeat split; reflexivity.
        -- apply cut_cons in Hp3. destruct Hp3 as [->|(p4 & -> & Hp4)].
           ++ (* a whole line without its end *)
              right. exists 1, [b]. rewrite read_end by (try assumption; destruct nm; discriminate). cbn [app].
              rewrite read_value by assumption. split; [reflexivity|]. split; [cbn; lia|].
              left. split; [reflexivity|]. intros Hk _ r Hr. destruct names as [|? ?]; [|discriminate Hk]. destruct values; [|discriminate Hl].
              cbn [combine map] in Hr. rewrite as_file_cons in Hr. change (line_of (nm, b)) with (value_is nm b) in Hr. rewrite line_split in Hr.
              apply app_inv_head in Hr. right. symmetry. exact Hr.
           ++ (* a whole line *)
              replace (nm ++ equal_sign :: value_char b :: nl :: p4) with ((nm ++ equal_sign :: [value_char b]) ++ nl :: p4) by (rewrite <- app_assoc; reflexivity).
              unfold cut_reading. rewrite read_loop_line by assumption. cbn [app]. rewrite read_value by assumption. cbn [obind].
              destruct (IH values p4 (fst acc ++ [nm], snd acc ++ [b]) Hn' ltac:(cbn in Hl; lia) Hp4) as [H|(k & vs & H & Hk & Hv)]; [left; exact H|].
              right. exists (S k), (b :: vs). rewrite H. cbn [fst snd]. rewrite <- !app_assoc. split; [reflexivity|]. split; [cbn; lia|].
              destruct Hv as [[-> Hr]|(k0 & nm' & -> & -> & Hnm & ->)].
              ** left. split; [reflexivity|]. intros Hk' _ r Hr'. cbn [combine map] in Hr'. rewrite as_file_cons in Hr'. change (line_of (nm, b)) with (value_is nm b) in Hr'. rewrite line_split in Hr'.
                 rewrite <- !app_assoc in Hr'. apply app_inv_head in Hr'. cbn [app] in Hr'. injection Hr' as Hr'.
                 destruct names as [|n2 names'].
                 --- destruct values; [|discriminate Hl]. cbn in Hr'. symmetry in Hr'. apply app_eq_nil in Hr'. left. tauto.
                 --- apply Hr; [cbn in Hk' |- *; lia|discriminate|exact Hr'].
              ** right. exists (S k0), nm'. split; [reflexivity|]. split; [reflexivity|]. split; [exact Hnm|].
                 cbn [firstn combine map]. rewrite as_file_cons. change (line_of (nm, b)) with (value_is nm b). rewrite line_split. rewrite <- !app_assoc. reflexivity.
Qed.
Lemma cut_header header : forall p acc, Forall comment_line header -> cut p (as_file header) ->
  read_loop p [] acc = Throw \/ read_loop p [] acc = Ok acc.
Proof.
  induction header as [|l header IH]; intros p acc Hh Hc.
  - apply cut_nil in Hc. subst p. right. reflexivity.
  - inversion Hh as [|? ? Hl Hh']; subst. rewrite as_file_cons in Hc. destruct (cut_app _ _ _ Hc) as [Hp|(p' & -> & Hp')].
    + destruct p as [|c p]; [right; reflexivity|].
      assert (Hni : ~ In newline (c :: p)) by (eapply cut_not_in; [exact Hp|apply Hl]).
      rewrite read_end by (assumption || discriminate). cbn [app].
      destruct Hl as (Hn & b & r & -> & Hb). destruct (cut_app _ _ _ Hp) as [Hq|(q & -> & Hq)].
      * left. assert (Hall : Forall blank (c :: p)) by (destruct Hq as [rr ->]; apply Forall_app in Hb; tauto).
        apply read_bad_line.
        -- intros (_ & b' & r' & E & _). rewrite E in Hall. apply Forall_app in Hall. destruct Hall as [_ Hall]. inversion Hall as [|? ? Hbl _]; subst. cbn in Hbl. intuition discriminate.
        -- eapply cut_not_in; [exact Hp|exact Hn].
        -- intros K. rewrite Forall_forall in Hall. apply Hall in K. cbn in K. intuition discriminate.
      * apply cut_cons in Hq. destruct Hq as [->|(q' & -> & Hq')].
        -- left. rewrite app_nil_r. apply read_bad_line.
           ++ intros (_ & b' & r' & E & _). rewrite E in Hb. apply Forall_app in Hb. destruct Hb as [_ Hb]. inversion Hb as [|? ? Hbl _]; subst. cbn in Hbl. intuition discriminate.
           ++ eapply cut_not_in; [|exact Hn]. exists (ascii_of_nat 92 :: r). reflexivity.
           ++ intros K. rewrite Forall_forall in Hb. apply Hb in K. cbn in K. intuition discriminate.
        -- right. apply read_comment. split; [|exists b, q'; split; [reflexivity|exact Hb]].
           eapply cut_not_in; [|exact Hn]. destruct Hq' as [s ->]. exists s. rewrite <- app_assoc. reflexivity.
    + destruct p' as [|c p']; [|].
      * rewrite app_nil_r. destruct l as [|c0 l0]; [right; reflexivity|].
        rewrite read_end by (try discriminate; apply Hl). cbn [app]. right. apply read_comment. exact Hl.
      * apply cut_cons in Hp'. destruct Hp' as [K|(p'' & E & Hp'')]; [discriminate K|]. injection E as -> ->.
        rewrite read_loop_line by apply Hl. cbn [app]. rewrite read_comment by assumption. cbn [obind]. apply IH; assumption.
Qed.
Lemma cut_file header names values p : Forall comment_line header -> Forall writable_name names -> List.length names = List.length values ->
  cut p (as_file (header ++ map line_of (combine names values))) ->
  read_loop p [] ([], []) = Throw \/
  (read_loop p [] ([], []) = Ok ([], []) /\ exists r, as_file (header ++ map line_of (combine names values)) = p ++ r) \/
  exists q, p = as_file header ++ q /\ cut q (as_file (map line_of (combine names values))) /\ cut_reading names values q ([], []) /\
    read_loop p [] ([], []) = read_loop q [] ([], []).
Proof.
  intros Hh Hn Hl Hc. pose proof Hc as [r Hr]. rewrite as_file_app in Hc. destruct (cut_app _ _ _ Hc) as [Hp|(q & -> & Hq)].
  - destruct (cut_header header p ([], []) Hh Hp) as [H|H]; [left; exact H|right; left]. split; [exact H|]. exists r. exact Hr.
  - right; right. exists q. split; [reflexivity|]. split; [exact Hq|]. split; [apply cut_values; assumption|].
    apply read_header. exact Hh.
Qed.

(** ** A cut file that is judged valid *)
Lemma read_shape t rd : read_result t = Ok rd -> exists ns vs, read_loop t [] ([], []) = Ok (ns, vs) /\ rd = mk_result (mk_affected [] []) ns [mk_solution vs 0] st_success.
Proof.
  unfold read_result. destruct (read_loop t [] ([], [])) as [[ns vs]| |]; cbn [obind]; try discriminate. intros H. injection H as <-. eauto.
Qed.
Lemma gives_read ns vs nm b : gives (mk_result (mk_affected [] []) ns [mk_solution vs 0] st_success) nm b <-> exists k, nth_error ns k = Some nm /\ nth_error vs k = Some b.
Proof.
  unfold gives, r_last. cbn. split.
  - intros [(s & k & Hs & H1 & H2)|(k & H & _)]; [|destruct k; discriminate]. injection Hs as <-. eauto.
  - intros (k & H1 & H2). left. eexists _, k. split; [reflexivity|]. auto.
Qed.
Lemma valid_length pb rd : is_valid_solution pb rd = Ok true -> List.length (v_names (p_vars pb)) = List.length (r_names rd) + List.length (a_names (r_affected rd)).
Proof.
  unfold is_valid_solution. destruct (r_last rd) as [s|]; [|discriminate]. destruct (negb (r_ok rd)); [discriminate|]. unfold ensures.
  destruct (Nat.eqb _ (List.length (v_values _))); [|discriminate].
  destruct (Nat.eqb_spec (List.length (v_names (p_vars pb))) (List.length (r_names rd) + List.length (a_names (r_affected rd)))) as [E|]; [intros _; exact E|discriminate].
Qed.
Lemma comments_not_valid header p pb rd : Forall comment_line header -> v_names (p_vars pb) <> [] -> cut p (as_file header) -> read_result p = Ok rd -> is_valid_solution pb rd <> Ok true.
Proof.
  intros Hh Hne Hc Hr Hv. apply valid_length in Hv. destruct (read_shape _ _ Hr) as (ns & vs & Hl & ->). cbn in Hv.
  destruct (cut_header header p ([], []) Hh Hc) as [H|H]; rewrite H in Hl; [discriminate|]. injection Hl as <- <-. cbn in Hv.
  destruct (v_names (p_vars pb)); [contradiction|discriminate].
Qed.
Lemma firstn_last {A} (l : list A) k x : nth_error l k = Some x -> S k = List.length l -> l = firstn k l ++ [x].
Proof.
  revert k. induction l as [|a l IH]; intros k H E; [destruct k; discriminate|]. destruct k as [|k].
  - injection H as ->. destruct l; [reflexivity|discriminate E].
  - cbn [firstn app]. f_equal. apply IH; [exact H|cbn in E; lia].
Qed.
Lemma cut_judged header names values pb p rd : Forall comment_line header -> Forall writable_name names -> NoDup names ->
  List.length names = List.length values -> List.length names = List.length (v_names (p_vars pb)) -> v_names (p_vars pb) <> [] ->
  let out := as_file (header ++ map line_of (combine names values)) in
  cut p out -> read_result p = Ok rd -> is_valid_solution pb rd = Ok true ->
  read_result out = Ok (mk_result (mk_affected [] []) names [mk_solution values 0] st_success) /\
  (rd = mk_result (mk_affected [] []) names [mk_solution values 0] st_success /\ (exists tail, out = p ++ tail /\ (tail = [] \/ tail = [nl])) \/
   exists nm, without_last_value out p nm /\ r_names rd = names /\ gives rd nm false /\
     forall nm' b, nm' <> nm -> (gives rd nm' b <-> gives (mk_result (mk_affected [] []) names [mk_solution values 0] st_success) nm' b)).
Proof.
  intros Hh Hn Hnd Hl Hlp Hne out Hc Hr Hv.
  assert (Hwhole : read_result out = Ok (mk_result (mk_affected [] []) names [mk_solution values 0] st_success)).
  { unfold out, read_result. rewrite as_file_app. unfold as_file at 1. rewrite read_header by assumption.
    rewrite <- (app_nil_r (as_file _)), (read_values names values [] ([], []) _ Hn Hl (value_lines_file names values Hl)). reflexivity. }
  split; [exact Hwhole|].
  pose proof (valid_length _ _ Hv) as Hlen. destruct (read_shape _ _ Hr) as (ns & vs & Hrl & ->). cbn [r_names r_affected a_names List.length] in Hlen. rewrite Nat.add_0_r in Hlen.
  destruct (cut_file header names values p Hh Hn Hl Hc) as [H|[[H _]|(q & -> & Hq & Hcr & H)]].
  - rewrite H in Hrl. discriminate.
  - rewrite H in Hrl. injection Hrl as <- <-. destruct (v_names (p_vars pb)); [contradiction|discriminate].
  - rewrite H in Hrl. destruct Hcr as [K|(k & vs' & K & Hk & Hcase)]; rewrite K in Hrl; [discriminate|]. cbn [fst snd app] in Hrl. injection Hrl as <- <-.
    rewrite firstn_length in Hlen. assert (k = List.length names) by lia. subst k. rewrite firstn_all.
    assert (Hnn : names <> []) by (intros ->; cbn in Hlp; destruct (v_names (p_vars pb)); [contradiction|discriminate]).
    destruct Hcase as [[-> Hrest]|(k0 & nm & Ek & -> & Hnm & ->)].
    + left. rewrite Hl, firstn_all. split; [reflexivity|]. destruct Hq as [tail Ht]. exists tail. split.
      * unfold out. rewrite as_file_app, Ht, app_assoc. reflexivity.
      * exact (Hrest eq_refl Hnn tail Ht).
    + right. exists nm.
      assert (Hv0 : exists b, nth_error values k0 = Some b).
      { destruct (nth_error values k0) as [b|] eqn:E; [eauto|]. apply nth_error_None in E. lia. }
      destruct Hv0 as [b Hb].
      pose proof (firstn_last names k0 nm Hnm (eq_sym Ek)) as En. pose proof (firstn_last values k0 b Hb ltac:(lia)) as Ev.
      assert (Hfl : List.length (firstn k0 names) = List.length (firstn k0 values)) by (rewrite !firstn_length; lia).
      split; [|split; [reflexivity|split]].
      * exists (as_file header ++ as_file (map line_of (combine (firstn k0 names) (firstn k0 values)))), b. split; [|rewrite <- !app_assoc; reflexivity].
        unfold out. rewrite as_file_app. rewrite En at 1. rewrite Ev at 1.
        assert (Ec : forall (l1 l1' : list text) (l2 l2' : list bool), List.length l1 = List.length l2 -> combine (l1 ++ l1') (l2 ++ l2') = combine l1 l2 ++ combine l1' l2').
        { induction l1 as [|? ? IHl]; intros l1' [|? ?] l2' HH; try discriminate; [reflexivity|]. cbn. f_equal. apply IHl. cbn in HH. lia. }
        rewrite Ec by assumption. rewrite map_app, as_file_app. rewrite <- !app_assoc. do 2 f_equal. cbn [combine map]. rewrite as_file_cons.
        change (line_of (nm, b)) with (value_is nm b). unfold value_is. destruct b; rewrite <- !app_assoc; reflexivity.
      * apply gives_read. exists k0. split; [exact Hnm|]. rewrite nth_error_app2 by (rewrite firstn_length; lia). rewrite firstn_length. replace (k0 - Nat.min k0 (List.length values)) with 0 by lia. reflexivity.
      * intros nm' b' Hne'. rewrite !gives_read. split.
        -- intros (j & H1 & H2). exists j. split; [exact H1|]. assert (j <> k0) by (intros ->; congruence).
           assert (j < S k0) by (rewrite <- Ek; apply nth_error_Some; congruence). rewrite nth_error_app1 in H2 by (rewrite firstn_length; lia).
           rewrite Ev, nth_error_app1 by (rewrite firstn_length; lia). exact H2.
        -- intros (j & H1 & H2). exists j. split; [exact H1|]. assert (j <> k0) by (intros ->; congruence).
           assert (j < S k0) by (rewrite <- Ek; apply nth_error_Some; congruence). rewrite nth_error_app1 by (rewrite firstn_length; lia).
           rewrite Ev, nth_error_app1 in H2 by (rewrite firstn_length; lia). exact H2.
Qed.

(** ** Requests *)
(** What is printed to a file. *)
Fixpoint printed (f : text) (qs : list request) : text :=
  match qs with
  | [] => []
  | Print_to g t :: qs' => (if text_eqb f g then t else []) ++ printed f qs'
  | _ :: qs' => printed f qs'
  end.
Definition opens (f : text) (q : request) : Prop := q = Open_file f.
Lemma text_eqb_true a : text_eqb a a = true.
Proof. destruct (Parser_proofs.text_eqb_spec a a); congruence. Qed.
Lemma put_same d f h : put d f h f = Some h.
Proof. unfold put. rewrite text_eqb_true. reflexivity. Qed.
Lemma put_other d f g h : f <> g -> put d f h g = d g.
Proof. intros H. unfold put. destruct (Parser_proofs.text_eqb_spec f g); congruence. Qed.
Lemma effects_printed f qs : forall d h, d f = Some h -> Forall (fun q => ~ opens f q) qs ->
  exists h', effects qs d f = Some h' /\ h_safe h' ++ h_waiting h' = (h_safe h ++ h_waiting h) ++ printed f qs /\ cut (h_safe h) (h_safe h').
Proof.
  induction qs as [|q qs IH]; intros d h Hd Ho.
  - exists h. cbn. rewrite app_nil_r. auto using cut_refl.
  - inversion Ho as [|? ? Hq Ho']; subst. unfold effects. cbn [fold_left]. fold (effects qs (request_effect q d)).
    destruct q as [g|g t|g]; cbn [request_effect printed].
    + assert (g <> f) by (intros ->; apply Hq; reflexivity). apply IH; [rewrite put_other by assumption; exact Hd|exact Ho'].
    + destruct (Parser_proofs.text_eqb_spec f g) as [<-|Hne].
      * rewrite Hd. destruct (IH (put d f (mk_held (h_safe h) (h_waiting h ++ t))) (mk_held (h_safe h) (h_waiting h ++ t)) (put_same _ _ _) Ho') as (h' & H1 & H2 & H3).
        exists h'. split; [exact H1|]. split; [rewrite H2; cbn [h_safe h_waiting]; rewrite <- !app_assoc; reflexivity|exact H3].
      * cbn [app]. destruct (d g) as [hg|] eqn:Eg; [|apply IH; assumption]. apply IH; [rewrite put_other by congruence; exact Hd|exact Ho'].
    + destruct (d g) as [hg|] eqn:Eg; [|apply IH; assumption].
      destruct (Parser_proofs.text_eqb_spec g f) as [->|Hne].
      * rewrite Hd in Eg. injection Eg as <-.
        destruct (IH (put d f (mk_held (h_safe h ++ h_waiting h) [])) (mk_held (h_safe h ++ h_waiting h) []) (put_same _ _ _) Ho') as (h' & H1 & H2 & H3).
        exists h'. split; [exact H1|]. split; [rewrite H2; cbn [h_safe h_waiting]; rewrite app_nil_r; reflexivity|].
        eapply cut_trans; [|exact H3]. exists (h_waiting h). reflexivity.
      * apply IH; [rewrite put_other by congruence; exact Hd|exact Ho'].
Qed.
Lemma effects_app a b d : effects (a ++ b) d = effects b (effects a d).
Proof. unfold effects. apply fold_left_app. Qed.
Lemma printed_app f a b : printed f (a ++ b) = printed f a ++ printed f b.
Proof.
  induction a as [|[g|g t|g] a IH]; cbn [app printed]; [reflexivity|exact IH|rewrite IH, app_assoc; reflexivity|exact IH].
Qed.
Lemma printed_lines f ls : printed f (print_lines f ls) = as_file ls.
Proof.
  induction ls as [|l ls IH]; [reflexivity|]. cbn [print_lines map printed]. rewrite text_eqb_true, as_file_cons. unfold print_lines in IH. rewrite IH, <- app_assoc. reflexivity.
Qed.
Lemma lines_no_open f g ls : Forall (fun q => ~ opens f q) (print_lines g ls).
Proof. induction ls; constructor; [intros K; discriminate K|assumption]. Qed.
(** What may be left of a file that is opened once is a first part of what is printed to it. *)
Lemma left_printed fs f qs t : fs f = None -> Forall (fun q => ~ opens f q) qs -> may_leave fs (Open_file f :: qs) f t -> cut t (printed f qs).
Proof.
  intros Hf Ho (done & later & E & h & p & Hh & Hp & ->). destruct done as [|q done].
  - cbn in Hh. unfold disk_of in Hh. rewrite Hf in Hh. discriminate.
  - injection E as <- E. subst qs. apply Forall_app in Ho. destruct Ho as [Ho _].
    unfold effects in Hh. cbn [fold_left request_effect] in Hh. fold (effects done (put (disk_of fs) f (mk_held [] []))) in Hh.
    destruct (effects_printed f done _ _ (put_same (disk_of fs) f (mk_held [] [])) Ho) as (h' & H1 & H2 & _). rewrite H1 in Hh. injection Hh as ->.
    cbn [h_safe h_waiting app] in H2. rewrite printed_app, <- H2. rewrite <- app_assoc. destruct Hp as [r Hp]. rewrite Hp. exists (r ++ printed f later). rewrite <- !app_assoc. reflexivity.
Qed.

(** ** The solution file of a run *)
Section One.
Context {D : Type} (dn : dops D) (cost : D -> Z).
Variable run : problem -> run_result (outcome sresult).
Variable fs : text -> option text.
Variables (pid end_time : text) (method duration loops : sresult -> text) (show_f show_value : option Z -> text).
Hypothesis He : ~ In newline end_time.
Hypothesis Hm : one_line method.
Hypothesis Hd : one_line duration.
Hypothesis Hlo : one_line loops.
Hypothesis Hsf : one_line show_f.
Hypothesis Hsv : one_line show_value.
Let requests := one_requests dn cost run fs pid end_time method duration loops show_f show_value.
Let sol_file := solution_file end_time method duration loops show_f show_value.

Definition sol_name (file : text) : text := file ++ str "-" ++ pid ++ str ".sol".
(** All that is printed is a cut of the final file, or comments. *)
Lemma one_shape fuel file p : reads_as dn fs fuel file p -> exists qs, requests fuel file = Open_file (sol_name file) :: qs /\
  Forall (fun q => ~ opens (sol_name file) q) qs /\
  ((exists r out, run (to_problem cost p) = Finished (Ok r) /\ sr_status r = st_success /\ sol_file (to_problem cost p) r = Ok out /\ printed (sol_name file) qs = out) \/
   ((forall r out, run (to_problem cost p) = Finished (Ok r) -> sr_status r = st_success -> sol_file (to_problem cost p) r <> Ok out) /\
    exists lines, Forall comment_line lines /\ printed (sol_name file) qs = as_file lines)).
Proof.
  intros (t & Hf & Hp). unfold requests, one_requests, read_file. rewrite Hf, Hp. fold (sol_name file). eexists. split; [reflexivity|].
  set (name := sol_name file). set (pb := to_problem cost p).
  assert (Hno : forall ls, Forall (fun q => ~ opens name q) (print_lines name ls)) by (intros; apply lines_no_open).
  assert (Hlast : forall t1, ~ opens name (Print_to name t1)) by (intros t1 K; discriminate K).
  assert (Hfl : ~ opens name (Flush_file name)) by (intros K; discriminate K).
  assert (Hb : Forall comment_line (before_run pb)) by apply before_run_comments.
  assert (Hfin : comment_line (str "\ solver finishes: " ++ end_time)).
  { apply comment_slash; [eexists; reflexivity|]. apply not_in_app; [vm_compute; intuition discriminate|assumption]. }
  assert (Hone : forall a b, printed name (Print_to name a :: b) = a ++ printed name b) by (intros; cbn [printed]; rewrite text_eqb_true; reflexivity).
  assert (Hlone : forall a, a ++ [nl] = as_file [a]) by (intros; unfold as_file; cbn; rewrite app_nil_r; reflexivity).
  assert (Hcom : forall ls, Forall comment_line ls -> (forall r out, run pb = Finished (Ok r) -> sr_status r = st_success -> sol_file pb r <> Ok out) ->
    forall qs, Forall (fun q => ~ opens name q) qs -> printed name qs = as_file ls ->
    Forall (fun q => ~ opens name q) qs /\
    ((exists r out, run pb = Finished (Ok r) /\ sr_status r = st_success /\ sol_file pb r = Ok out /\ printed name qs = out) \/
     (forall r out, run pb = Finished (Ok r) -> sr_status r = st_success -> sol_file pb r <> Ok out) /\
     exists lines, Forall comment_line lines /\ printed name qs = as_file lines)) by eauto 10.
  assert (Hmore : forall l, comment_line l -> Forall comment_line ((before_run pb ++ [str "\ solver finishes: " ++ end_time]) ++ [l])).
  { intros l Hl. apply Forall_app; split; [apply Forall_app; split; [exact Hb|]|]; repeat constructor; apply Hl || apply Hfin. }
  assert (Hfound : forall v, comment_line (str "\ Solution found: " ++ show_f v)).
  { intros v. apply comment_slash; [eexists; reflexivity|]. apply not_in_app; [vm_compute; intuition discriminate|apply Hsf]. }
  assert (Hnot : forall z, comment_line (str "\ Solution not found. Missing constraints: " ++ show_int z)).
  { intros z. apply comment_slash; [eexists; reflexivity|]. apply not_in_app; [vm_compute; intuition discriminate|apply show_int_line]. }
  assert (Hopen : forall qs, Forall (fun q => ~ opens name q) qs -> Forall (fun q => ~ opens name q) (print_lines name (before_run pb) ++ qs)).
  { intros qs Hq. apply Forall_app. split; [apply Hno|exact Hq]. }
  destruct (run pb) as [[r| |]| |] eqn:Er.
  - destruct (sr_status r) eqn:Es.
    1: destruct (last_solution r) as [[x v]|] eqn:El; [destruct (resume_result method duration loops show_f show_value r) as [body| |] eqn:Eb|].
    1: split; [apply Hopen; constructor; [apply Hlast|]; constructor; [apply Hlast|]; apply Forall_app; split; [apply Hno|repeat constructor; apply Hfl]|];
       left; exists r; eexists; split; [reflexivity|]; split; [assumption|]; unfold sol_file, solution_file; rewrite Es, El, Eb; cbn [obind]; split; [reflexivity|];
       rewrite printed_app, printed_lines, !Hone, printed_app, printed_lines; cbn [printed]; rewrite !as_file_app, app_nil_r; unfold as_file; cbn [map List.concat]; rewrite <- !app_assoc; reflexivity.
    1,2: apply (Hcom _ (Hmore _ (Hfound v))).
    7: apply (Hcom (before_run pb ++ [str "\ solver finishes: " ++ end_time])); [apply Forall_app; split; [exact Hb|repeat constructor; apply Hfin]| | |].
    10-15: apply (Hcom _ (Hmore _ (Hnot (sr_remaining r)))).
    all: try (intros r' out K Ks Ko; injection K as <-; unfold sol_file, solution_file in Ko; try congruence; rewrite Es, El in Ko; try rewrite Eb in Ko; discriminate Ko).
    all: try (apply Hopen; repeat constructor; (apply Hlast || apply Hfl)).
    all: rewrite printed_app, printed_lines, !Hone; cbn [printed]; rewrite !as_file_app; unfold as_file; cbn [map List.concat]; rewrite <- !app_assoc; reflexivity.
  - apply (Hcom _ Hb); [intros r' out K; discriminate K|apply Hopen; repeat constructor; apply Hfl|]. rewrite printed_app, printed_lines. cbn [printed]. apply app_nil_r.
  - apply (Hcom _ Hb); [intros r' out K; discriminate K|apply Hopen; constructor|]. rewrite printed_app, printed_lines. cbn [printed]. apply app_nil_r.
  - apply (Hcom _ Hb); [intros r' out K; discriminate K|apply Hopen; constructor|]. rewrite printed_app, printed_lines. cbn [printed]. apply app_nil_r.
  - apply (Hcom _ Hb); [intros r' out K; discriminate K|apply Hopen; constructor|]. rewrite printed_app, printed_lines. cbn [printed]. apply app_nil_r.
Qed.
End One.

(** ** Without interruption: the file of main() *)
Lemma effects_closed f qs d h : d f = Some h -> Forall (fun q => ~ opens f q) qs ->
  effects (qs ++ [Flush_file f]) d f = Some (mk_held ((h_safe h ++ h_waiting h) ++ printed f qs) []).
Proof.
  intros Hd Ho. rewrite effects_app. destruct (effects_printed f qs d h Hd Ho) as (h' & H1 & H2 & _).
  unfold effects at 1. cbn [fold_left request_effect]. rewrite H1, put_same, H2. reflexivity.
Qed.
Section Whole.
Context {D : Type} (dn : dops D) (cost : D -> Z).
Variable run : problem -> run_result (outcome sresult).
Variable fs : text -> option text.
Variables (pid end_time : text) (method duration loops : sresult -> text) (show_f show_value : option Z -> text).
Let requests := one_requests dn cost run fs pid end_time method duration loops show_f show_value.
Let one := main_one dn cost run fs pid end_time method duration loops show_f show_value.

Lemma one_requests_whole fuel file e name out : one fuel file = Finished e -> In (name, out) (en_files e) ->
  effects (requests fuel file) (disk_of fs) name = Some (mk_held out []).
Proof.
  unfold one, main_one, requests, one_requests. destruct (read_file dn fs fuel file) as [[p|]| | |]; try discriminate.
  2: intros H; injection H as <-; intros [].
  set (nm := file ++ str "-" ++ pid ++ str ".sol"). set (pb := to_problem cost p).
  assert (Hone : forall a b, printed nm (Print_to nm a :: b) = a ++ printed nm b) by (intros; cbn [printed]; rewrite text_eqb_true; reflexivity).
  assert (Hlast : forall t1, ~ opens nm (Print_to nm t1)) by (intros t1 K; discriminate K).
  assert (Hend : forall qs, Forall (fun q => ~ opens nm q) qs ->
    effects (Open_file nm :: print_lines nm (before_run pb) ++ qs ++ [Flush_file nm]) (disk_of fs) nm = Some (mk_held (as_file (before_run pb) ++ printed nm qs) [])).
  { intros qs Hq. rewrite app_assoc. unfold effects. cbn [fold_left request_effect]. fold (effects ((print_lines nm (before_run pb) ++ qs) ++ [Flush_file nm]) (put (disk_of fs) nm (mk_held [] []))).
    rewrite (effects_closed nm _ _ _ (put_same (disk_of fs) nm (mk_held [] []))) by (apply Forall_app; split; [apply lines_no_open|exact Hq]).
    rewrite printed_app, printed_lines. reflexivity. }
  destruct (run pb) as [[r| |]| |]; try discriminate.
  - destruct (solution_file end_time method duration loops show_f show_value pb r) as [o| |] eqn:Eo; try discriminate. intros H. injection H as <-. cbn [en_files]. intros [K|[]]. injection K as <- <-.
    unfold solution_file in Eo. destruct (sr_status r).
    1: destruct (last_solution r) as [[x v]|]; [|discriminate]; destruct (resume_result method duration loops show_f show_value r) as [body| |]; try discriminate Eo.
    1: specialize (Hend (Print_to nm (str "\ solver finishes: " ++ end_time ++ [nl]) :: Print_to nm (str "\ Solution found: " ++ show_f v ++ [nl]) :: print_lines nm body));
       rewrite !Hone, printed_lines in Hend.
    2-7: specialize (Hend [Print_to nm (str "\ solver finishes: " ++ end_time ++ [nl]); Print_to nm (str "\ Solution not found. Missing constraints: " ++ show_int (sr_remaining r) ++ [nl])]);
       rewrite !Hone in Hend; cbn [printed] in Hend.
    all: cbn [app] in Hend; rewrite Hend by (repeat (constructor; [apply Hlast|]); try apply lines_no_open; constructor); do 2 f_equal; cbn [obind] in Eo; injection Eo as <-;
       rewrite !as_file_app; unfold as_file; cbn [map List.concat]; rewrite <- !app_assoc; reflexivity.
  - intros H. injection H as <-. cbn [en_files]. intros [K|[]]. injection K as <- <-. specialize (Hend [] ltac:(constructor)). cbn [app printed] in Hend. rewrite app_nil_r in Hend. exact Hend.
Qed.

(** ** Several files *)
Let several := main_several dn cost run fs duration show_f show_value.
Let file_requests' := file_requests dn cost run fs duration show_f show_value.
Let loop_requests' := loop_requests dn cost run fs duration show_f show_value.
Definition res_name : text := str "baryonyx-" ++ pid ++ str ".res".

Lemma file_no_open fuel nm file : Forall (fun q => ~ opens nm q) (file_requests' fuel nm file).
Proof.
  unfold file_requests', file_requests. destruct (read_file dn fs fuel file) as [[p|]| | |]; try constructor; [intros K; discriminate K|].
  destruct (run (to_problem cost p)) as [[r| |]| |]; try constructor. destruct (result_line duration show_f show_value r); repeat constructor; intros K; discriminate K.
Qed.
Lemma loop_no_open fuel nm files : Forall (fun q => ~ opens nm q) (loop_requests' fuel nm files).
Proof.
  induction files as [|f files IH]; unfold loop_requests'; cbn [loop_requests].
  - repeat constructor. intros K; discriminate K.
  - apply Forall_app. split; [apply file_no_open|]. destruct (goes_on dn cost run fs duration show_f show_value fuel f); [exact IH|constructor].
Qed.
Lemma several_printed fuel nm files : forall out msgs out' msgs', several fuel files out msgs = Finished (out', msgs') ->
  out' = out ++ printed nm (flat_map (file_requests' fuel nm) files) /\ loop_requests' fuel nm files = flat_map (file_requests' fuel nm) files ++ [Flush_file nm].
Proof.
  unfold several. induction files as [|f files IH]; intros out msgs out' msgs' H; cbn [main_several] in H.
  - injection H as <- <-. cbn. rewrite app_nil_r. split; reflexivity.
  - cbn [flat_map]. rewrite printed_app. unfold loop_requests'. cbn [loop_requests]. fold (file_requests' fuel nm f). fold (loop_requests' fuel nm files). rewrite <- app_assoc.
    unfold goes_on. unfold file_requests' at 1 3, file_requests at 1 2. destruct (read_file dn fs fuel f) as [[p|]| | |] eqn:Er; try discriminate.
    + destruct (run (to_problem cost p)) as [[r| |]| |] eqn:Err; try discriminate.
      * destruct (result_line duration show_f show_value r) as [l| |] eqn:El; try discriminate. destruct (IH _ _ _ _ H) as [-> ->]. split.
        -- cbn [printed]. rewrite !text_eqb_true, app_nil_r, <- !app_assoc. reflexivity.
        -- f_equal. unfold file_requests', file_requests. rewrite Er, Err, El. reflexivity.
      * destruct (IH _ _ _ _ H) as [-> ->]. split.
        -- cbn [printed]. rewrite !text_eqb_true, app_nil_r, <- !app_assoc. reflexivity.
        -- f_equal. unfold file_requests', file_requests. rewrite Er, Err. reflexivity.
    + destruct (IH _ _ _ _ H) as [-> ->]. split; [reflexivity|]. f_equal. unfold file_requests', file_requests. rewrite Er. reflexivity.
Qed.
Lemma several_kept fuel before f p r done more t out msgs :
  reads_as dn fs fuel f p -> run (to_problem cost p) = Finished (Ok r) ->
  several fuel (before ++ [f]) [] [] = Finished (out, msgs) ->
  done = Open_file res_name :: flat_map (file_requests' fuel res_name) (before ++ [f]) ++ more -> Forall (fun q => ~ opens res_name q) more ->
  left_after fs done res_name t -> cut out t.
Proof.
  intros (tx & Hf & Hp) Hr Hs -> Hmore (h & q & Hh & Hq & ->).
  destruct (several_printed fuel res_name _ _ _ _ _ Hs) as [Ho _]. cbn [app] in Ho.
  assert (Hl : exists pre, flat_map (file_requests' fuel res_name) (before ++ [f]) = pre ++ [Flush_file res_name]).
  { rewrite flat_map_app. cbn [flat_map]. rewrite app_nil_r.
    assert (Hfl : forall out msgs res, several fuel (before ++ [f]) out msgs = Finished res -> exists l, result_line duration show_f show_value r = Ok l).
    { clear - Hf Hp Hr. unfold several. induction before as [|b before IH]; intros out msgs res H; cbn [app main_several] in H.
      - unfold read_file in H. rewrite Hf, Hp, Hr in H. destruct (result_line duration show_f show_value r); [eauto|discriminate|discriminate].
      - destruct (read_file dn fs fuel b) as [[p'|]| | |]; try discriminate.
        + destruct (run (to_problem cost p')) as [[r'| |]| |]; try discriminate.
          * destruct (result_line duration show_f show_value r'); try discriminate. eapply IH; exact H.
          * eapply IH; exact H.
        + eapply IH; exact H. }
    destruct (Hfl _ _ _ Hs) as [l Hl].
    exists (flat_map (file_requests' fuel res_name) before ++ [Print_to res_name (f ++ str " "); Print_to res_name l]). rewrite <- app_assoc. f_equal.
    unfold file_requests', file_requests, read_file. rewrite Hf, Hp, Hr, Hl. reflexivity. }
  destruct Hl as [pre Hpre].
  assert (Hno : Forall (fun q => ~ opens res_name q) (pre ++ [Flush_file res_name])).
  { rewrite <- Hpre. apply Forall_flat_map. apply Forall_forall. intros x _. apply file_no_open. }
  rewrite Hpre in Hh, Ho. apply Forall_app in Hno. destruct Hno as [Hno _].
  unfold effects in Hh. cbn [fold_left request_effect] in Hh. fold (effects ((pre ++ [Flush_file res_name]) ++ more) (put (disk_of fs) res_name (mk_held [] []))) in Hh. rewrite effects_app in Hh.
  pose proof (effects_closed res_name pre _ _ (put_same (disk_of fs) res_name (mk_held [] [])) Hno) as He. cbn [h_safe h_waiting app] in He.
  rewrite printed_app in Ho. cbn [printed] in Ho. rewrite app_nil_r in Ho.
  destruct (effects_printed res_name more _ _ He Hmore) as (h' & H1 & _ & H3). rewrite H1 in Hh. injection Hh as ->.
  cbn [h_safe] in H3. rewrite <- Ho in H3. apply cut_more. exact H3.
Qed.
Lemma several_prefix fuel files t out msgs : fs res_name = None -> several fuel files [] [] = Finished (out, msgs) ->
  may_leave fs (several_requests dn cost run fs pid duration show_f show_value fuel files) res_name t -> cut t out.
Proof.
  intros Hn Hs Hl. unfold several_requests in Hl. fold res_name in Hl. apply left_printed in Hl; [|exact Hn|apply loop_no_open].
  destruct (several_printed fuel res_name _ _ _ _ _ Hs) as [-> Hr]. unfold loop_requests' in Hr. rewrite Hr, printed_app in Hl. cbn [printed] in Hl. rewrite app_nil_r in Hl. exact Hl.
Qed.
Lemma several_whole fuel files out msgs : several fuel files [] [] = Finished (out, msgs) ->
  effects (several_requests dn cost run fs pid duration show_f show_value fuel files) (disk_of fs) res_name = Some (mk_held out []).
Proof.
  intros Hs. destruct (several_printed fuel res_name _ _ _ _ _ Hs) as [-> Hr]. unfold several_requests. fold res_name. unfold loop_requests' in Hr. rewrite Hr.
  unfold effects. cbn [fold_left request_effect]. fold (effects (flat_map (file_requests' fuel res_name) files ++ [Flush_file res_name]) (put (disk_of fs) res_name (mk_held [] []))).
  apply (effects_closed res_name _ _ _ (put_same (disk_of fs) res_name (mk_held [] []))). apply Forall_flat_map, Forall_forall. intros x _. apply file_no_open.
Qed.
Lemma loop_goes_on fuel nm before f after : forall out msgs out' msgs', several fuel before out msgs = Finished (out', msgs') ->
  loop_requests' fuel nm (before ++ f :: after) =
  flat_map (file_requests' fuel nm) before ++ loop_requests' fuel nm (f :: after).
Proof.
  unfold several. induction before as [|b before IH]; intros out msgs out' msgs' H; cbn [main_several] in H; [reflexivity|].
  cbn [app flat_map]. rewrite <- app_assoc. unfold loop_requests' at 1. cbn [loop_requests]. fold (file_requests' fuel nm b). f_equal.
  fold (loop_requests' fuel nm (before ++ f :: after)). unfold goes_on. destruct (read_file dn fs fuel b) as [[p|]| | |]; try discriminate; [|exact (IH _ _ _ _ H)].
  destruct (run (to_problem cost p)) as [[r| |]| |]; try discriminate; [|exact (IH _ _ _ _ H)].
  destruct (result_line duration show_f show_value r); try discriminate. exact (IH _ _ _ _ H).
Qed.
Lemma dies_requests fuel nm f after : forall out msgs, (forall res, several fuel [f] out msgs <> Finished res) ->
  loop_requests' fuel nm (f :: after) = file_requests' fuel nm f /\ cut (printed nm (file_requests' fuel nm f)) (f ++ str " ").
Proof.
  intros out msgs H. unfold loop_requests'. cbn [loop_requests]. fold (file_requests' fuel nm f). unfold goes_on, file_requests', file_requests.
  unfold several in H. cbn [main_several] in H.
  assert (C : cut (f ++ str " ") (f ++ str " ")) by apply cut_refl. assert (C0 : cut [] (f ++ str " ")) by (exists (f ++ str " "); reflexivity).
  assert (P : printed nm [Print_to nm (f ++ str " ")] = f ++ str " ") by (cbn [printed]; rewrite text_eqb_true; apply app_nil_r).
  destruct (read_file dn fs fuel f) as [[p|]| | |]; try (split; [reflexivity|exact C0]); [|exfalso; exact (H _ eq_refl)].
  destruct (run (to_problem cost p)) as [[r| |]| |]; try (split; [reflexivity|rewrite P; exact C]); [|exfalso; exact (H _ eq_refl)].
  destruct (result_line duration show_f show_value r); [exfalso; exact (H _ eq_refl)| |]; (split; [reflexivity|rewrite P; exact C]).
Qed.
Lemma several_app fuel before f : forall out msgs out' msgs', several fuel before out msgs = Finished (out', msgs') ->
  several fuel (before ++ [f]) out msgs = several fuel [f] out' msgs'.
Proof.
  unfold several. induction before as [|b before IH]; intros out msgs out' msgs' H; cbn [main_several] in H; [injection H as <- <-; reflexivity|].
  cbn [app]. cbn [main_several] in *. destruct (read_file dn fs fuel b) as [[p|]| | |]; try discriminate; [|exact (IH _ _ _ _ H)].
  destruct (run (to_problem cost p)) as [[r| |]| |]; try discriminate; [|exact (IH _ _ _ _ H)].
  destruct (result_line duration show_f show_value r); try discriminate. exact (IH _ _ _ _ H).
Qed.
Lemma several_dies fuel before f after out msgs :
  several fuel before [] [] = Finished (out, msgs) -> (forall res, several fuel (before ++ [f]) [] [] <> Finished res) ->
  several_requests dn cost run fs pid duration show_f show_value fuel (before ++ f :: after) =
    Open_file res_name :: flat_map (file_requests' fuel res_name) (before ++ [f]) /\
  forall t, fs res_name = None ->
    may_leave fs (several_requests dn cost run fs pid duration show_f show_value fuel (before ++ f :: after)) res_name t -> cut t (out ++ f ++ str " ").
Proof.
  intros Hb Hd. rewrite (several_app _ _ _ _ _ _ _ Hb) in Hd. destruct (dies_requests fuel res_name f after _ _ Hd) as [H1 H2].
  assert (H : several_requests dn cost run fs pid duration show_f show_value fuel (before ++ f :: after) =
    Open_file res_name :: flat_map (file_requests' fuel res_name) (before ++ [f])).
  { unfold several_requests. fold res_name. f_equal. fold (loop_requests' fuel res_name (before ++ f :: after)).
    rewrite (loop_goes_on fuel res_name before f after _ _ _ _ Hb), H1, flat_map_app. cbn [flat_map]. rewrite app_nil_r. reflexivity. }
  split; [exact H|]. intros t Hn Hl. rewrite H in Hl.
  apply left_printed in Hl; [|exact Hn|apply Forall_flat_map, Forall_forall; intros x _; apply file_no_open].
  destruct (several_printed fuel res_name _ _ _ _ _ Hb) as [Ho _]. cbn [app] in Ho. rewrite flat_map_app, printed_app in Hl. cbn [flat_map] in Hl. rewrite app_nil_r, <- Ho in Hl.
  destruct Hl as [r1 E1], H2 as [r2 E2]. exists (r1 ++ r2). rewrite E2, app_assoc, E1, <- app_assoc. reflexivity.
Qed.
End Whole.

(** ** A benchmark *)
Lemma rfind_char c l : forall i, rfind [c] l = Some i -> nth_error l i = Some c.
Proof.
  induction l as [|a l IH]; intros i; cbn [rfind]; [discriminate|]. destruct (rfind [c] l) as [j|].
  - intros H. injection H as <-. cbn. apply IH. reflexivity.
  - cbn [is_prefix]. destruct (Ascii.eqb_spec c a) as [<-|]; cbn [andb]; [|discriminate]. intros H. injection H as <-. reflexivity.
Qed.
Lemma stats_other f : stats_file_name f <> f.
Proof.
  unfold stats_file_name, before. destruct (rfind (str ".") f) as [i|] eqn:E.
  - intros K. apply rfind_char in E. assert (Hi : i < List.length f) by (apply nth_error_Some; congruence).
    rewrite <- K in E. rewrite nth_error_app2 in E by (rewrite firstn_length; lia). rewrite firstn_length in E.
    replace (i - Nat.min i (List.length f)) with 0 in E by lia. discriminate E.
  - intros K. apply (f_equal (@List.length _)) in K. rewrite app_length in K. cbn in K. lia.
Qed.
Section Bench.
Variable to_double : text -> option dbl.
Variables (show10 show_double : dbl -> text).
Variable std_sort : forall A : Type, (A -> A -> bool) -> list A -> list A.
Variable run : nat -> text -> run_end.
Variables (fs : text -> option text) (writable : text -> bool) (file name : text).
Let requests := bench_requests to_double show10 show_double std_sort run fs writable file name.
Let bench_end := benchmark to_double show10 show_double std_sort run fs writable file name.

Lemma bench_shape : requests = [] \/
  exists qs, requests = Open_file file :: qs /\ Forall (fun q => ~ opens file q) qs /\ writable file = true /\
    (printed file qs = [] \/ In (file, printed file qs) (be_files bench_end)).
Proof.
  unfold requests, bench_requests, bench_end, benchmark. destruct (fs file) as [t|]; [|auto]. destruct (load to_double t) as [[b|e]|]; auto.
  destruct (run_models run (model_dir file) (bn_models b) 0) as [[[models c]|]|]; auto. destruct (writable file); auto. right. eexists. split; [reflexivity|].
  destruct (save_text show10 (mk_bench models (bn_solvers b) (bn_array b)) name c) as [t1|].
  2: { split; [constructor|]. split; [reflexivity|]. left. reflexivity. }
  assert (Hn : forall t1, ~ opens file (Print_to file t1)) by (intros ? K; discriminate K).
  assert (Hp : forall g t1, ~ opens file (Print_to g t1)) by (intros ? ? K; discriminate K).
  assert (Hf : forall g, ~ opens file (Flush_file g)) by (intros ? K; discriminate K).
  assert (Ho : ~ opens file (Open_file (stats_file_name file))) by (intros K; injection K as K; exact (stats_other file K)).
  assert (Ht : text_eqb file (stats_file_name file) = false) by (destruct (Parser_proofs.text_eqb_spec file (stats_file_name file)) as [K|]; [exfalso; apply (stats_other file); congruence|reflexivity]).
  destruct (writable (stats_file_name file)).
  - destruct (stats_text show_double std_sort (mk_bench models (bn_solvers b) (bn_array b)) name c) as [t2|].
    + split; [repeat constructor; auto|]. split; [reflexivity|]. right. cbn [printed]. rewrite text_eqb_true, Ht. cbn [app]. rewrite app_nil_r. left. reflexivity.
    + split; [repeat constructor; auto|]. split; [reflexivity|]. right. cbn [printed]. rewrite text_eqb_true. cbn [app]. rewrite app_nil_r. left. reflexivity.
  - split; [repeat constructor; auto|]. split; [reflexivity|]. right. cbn [printed]. rewrite text_eqb_true. cbn [app]. rewrite app_nil_r. left. reflexivity.
Qed.
Lemma bench_left former t : fs file = Some former -> may_leave fs requests file t ->
  t = former \/ t = [] \/ exists new, In (file, new) (be_files bench_end) /\ cut t new.
Proof.
  intros Hf (done & later & E & h & p & Hh & Hp & ->). destruct done as [|q done].
  - left. cbn in Hh. unfold disk_of in Hh. rewrite Hf in Hh. injection Hh as <-. cbn [h_safe h_waiting] in *. apply cut_nil in Hp. subst p. apply app_nil_r.
  - right. destruct bench_shape as [K|(qs & K & Ho & _ & Hc)]; rewrite K in E; [discriminate E|]. injection E as <- ->.
    pose proof Ho as Ho2. apply Forall_app in Ho. destruct Ho as [Ho _].
    unfold effects in Hh. cbn [fold_left request_effect] in Hh. fold (effects done (put (disk_of fs) file (mk_held [] []))) in Hh.
    destruct (effects_printed file done _ _ (put_same (disk_of fs) file (mk_held [] [])) Ho) as (h' & H1 & H2 & _). rewrite H1 in Hh. injection Hh as ->.
    cbn [h_safe h_waiting app] in H2.
    assert (Hcut : cut (h_safe h ++ p) (printed file (done ++ later))).
    { rewrite printed_app, <- H2. destruct Hp as [r Hp]. rewrite Hp. exists (r ++ printed file later). rewrite <- !app_assoc. reflexivity. }
    destruct Hc as [Hc|Hc]; [left; rewrite Hc in Hcut; apply cut_nil; exact Hcut|right; eauto].
Qed.
Lemma bench_kept : writable file = false \/ (forall new, ~ In (file, new) (be_files bench_end)) /\ be_result bench_end <> Bench_crash -> requests = [].
Proof.
  unfold requests, bench_requests, bench_end, benchmark. destruct (fs file) as [t|]; [|auto]. destruct (load to_double t) as [[b|e]|]; auto.
  destruct (run_models run (model_dir file) (bn_models b) 0) as [[[models c]|]|]; auto. destruct (writable file); [|auto]. intros [K|[K1 K2]]; [discriminate K|]. exfalso.
  destruct (save_text show10 (mk_bench models (bn_solvers b) (bn_array b)) name c) as [t1|]; [|apply K2; reflexivity].
  apply (K1 t1). destruct (writable (stats_file_name file)); [destruct (stats_text _ _ _ _ _)|]; left; reflexivity.
Qed.
Lemma bench_whole new : In (file, new) (be_files bench_end) -> effects requests (disk_of fs) file = Some (mk_held new []).
Proof.
  unfold requests, bench_requests, bench_end, benchmark. destruct (fs file) as [t|] eqn:Efs; [|intros []]. destruct (load to_double t) as [[b|e]|]; try (intros []; fail).
  destruct (run_models run (model_dir file) (bn_models b) 0) as [[[models c]|]|]; try (intros []; fail). destruct (writable file); [|intros []].
  destruct (save_text show10 (mk_bench models (bn_solvers b) (bn_array b)) name c) as [t1|]; [|intros []].
  assert (Hne : stats_file_name file <> file) by apply stats_other.
  set (d1 := put (put (put (disk_of fs) file (mk_held [] [])) file (mk_held [] t1)) file (mk_held t1 [])).
  assert (E1 : d1 file = Some (mk_held t1 [])) by apply put_same.
  assert (Ed : forall qs, effects (Open_file file :: Print_to file t1 :: Flush_file file :: qs) (disk_of fs) file = effects qs d1 file).
  { intros qs. unfold effects. cbn [fold_left request_effect]. rewrite put_same. cbn [h_safe h_waiting app]. rewrite put_same. reflexivity. }
  destruct (writable (stats_file_name file)).
  - destruct (stats_text show_double std_sort (mk_bench models (bn_solvers b) (bn_array b)) name c) as [t2|].
    + intros [K|[K|[]]]; [|injection K as K _; contradiction]. injection K as <-. rewrite Ed.
      unfold effects. cbn [fold_left request_effect]. rewrite put_same. cbn [h_safe h_waiting app]. rewrite put_same. rewrite !put_other by assumption. exact E1.
    + intros [K|[]]. injection K as <-. rewrite Ed. unfold effects. cbn [fold_left request_effect]. rewrite put_other by assumption. exact E1.
  - intros [K|[]]. injection K as <-. rewrite Ed. exact E1.
Qed.
End Bench.
