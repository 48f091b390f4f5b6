(** Bounds, types and the whole document. *)
From Coq Require Import Ascii String Lia.
From Verif Require Import Base Problem_model ResultIO_model Chars_spec Lexer_model Lexer_spec Lexer_proofs Parser_model Parser_spec Parser_proofs Parser_proofs2 Parser_proofs3.
Open Scope string_scope.
Open Scope list_scope.
Open Scope nat_scope.

Definition vars_of (N : list text) (h : text -> variable_value) : variables := mk_variables N (map h N).
Lemma list_modify_position N (h : text -> variable_value) nm f : NoDup N -> In nm N ->
  list_modify (map h N) (position nm N) f = Some (map (fun x => if text_eqb x nm then f (h x) else h x) N).
Proof.
  unfold list_modify. induction N as [ |y N IH ]; intros Hd Hin; [ destruct Hin |]. inversion Hd; subst. cbn [position map].
  destruct (text_eqb_spec nm y) as [->|Hne].
  - cbn [nth_error bind list_upd]. rewrite text_eqb_refl. f_equal. f_equal. apply map_ext_in. intros x Hx.
    rewrite text_eqb_neq by (intros ->; auto). reflexivity.
  - cbn [nth_error list_upd]. rewrite text_eqb_neq by congruence.
    assert (Hin' : In nm N) by (destruct Hin; [ congruence | assumption ]). specialize (IH H2 Hin').
    destruct (nth_error (map h N) (position nm N)); [ | discriminate ]. cbn [bind] in *. rewrite IH. reflexivity.
Qed.
Lemma set_value_ok N h nm f : NoDup N -> In nm N ->
  set_value (vars_of N h) (position nm N) f = P_ok (vars_of N (fun x => if text_eqb x nm then f (h x) else h x)).
Proof.
  intros H1 H2. unfold set_value, vars_of. cbn [v_values v_names]. rewrite list_modify_position by assumption. reflexivity.
Qed.
Lemma vars_of_ext N h h' : (forall x, In x N -> h x = h' x) -> vars_of N h = vars_of N h'.
Proof. intros H. unfold vars_of. f_equal. apply map_ext_in. exact H. Qed.
Lemma tk_app_plus a b i : tk (a ++ b) (length a + i) = tk b i.
Proof. unfold tk. rewrite app_nth2_plus. reflexivity. Qed.

Section Doc.
Context {D : Type} (dn : dops D).

Definition stops (t : text) : Prop := t <> str "=" /\ t <> str "<" /\ t <> str ">".
Lemma read_op_gen op sp r : stops (tk r 0) ->
  read_operator (tk (op_tokens op sp ++ r) 0) (tk (op_tokens op sp ++ r) 1) = Some (op, length (op_tokens op sp)).
Proof.
  intros [H1 [H2 H3]]. destruct op, sp; unfold tk; cbn [op_tokens app nth length]; unfold read_operator; try reflexivity;
    unfold tk in *; rewrite ?(eqb_str (nth 0 r [])) by assumption; reflexivity.
Qed.
Lemma plain_stops t : plain t -> stops t.
Proof. intros H. pose proof (plain_facts _ H) as F. split; [ apply F | split; apply F ]. Qed.
Lemma signed_stops s r : signed_ok dn s -> stops (tk (signed_tokens s ++ r) 0).
Proof.
  intros H. destruct (signed_head dn s r H) as [x [y [E [Hx _]]]]. rewrite E. cbn [tk nth].
  destruct Hx as [Hx|[[->| ->] _]]; [ apply plain_stops; exact Hx | |]; repeat split; discriminate.
Qed.
Lemma read_left lo sp nm r : signed_ok dn lo -> plain nm ->
  let toks := signed_tokens lo ++ op_tokens op_less sp ++ nm :: r in
  read_left_bound dn (tk toks 0) (tk toks 1) (tk toks 2) (tk toks 3) =
    P_ok (Some (signed_value dn lo, length (signed_tokens lo ++ op_tokens op_less sp))).
Proof.
  intros Hlo Hnm toks. pose proof (read_op_gen op_less sp (nm :: r) (plain_stops _ Hnm)) as Hop.
  destruct lo as [s n]. unfold signed_ok in Hlo. cbn [s_num] in Hlo. pose proof (plain_facts _ (num_plain dn _ Hlo)) as F.
  unfold read_left_bound, signed_value. subst toks. destruct s as [[]|]; unfold signed_tokens; cbn [s_sign s_num sign_tokens app].
  - change (tk (str "+" :: n :: op_tokens op_less sp ++ nm :: r) 0) with (str "+").
    change (tk (str "+" :: n :: op_tokens op_less sp ++ nm :: r) 1) with n.
    change (tk (str "+" :: n :: op_tokens op_less sp ++ nm :: r) 2) with (tk (op_tokens op_less sp ++ nm :: r) 0).
    change (tk (str "+" :: n :: op_tokens op_less sp ++ nm :: r) 3) with (tk (op_tokens op_less sp ++ nm :: r) 1).
    change (text_eqb (str "+") (str "+") || text_eqb (str "+") (str "-")) with true. cbv iota.
    rewrite (read_num dn n Hlo). cbn [pbind bind]. rewrite Hop. cbn [bind with_sign length]. rewrite Nat.add_comm. reflexivity.
  - change (tk (str "-" :: n :: op_tokens op_less sp ++ nm :: r) 0) with (str "-").
    change (tk (str "-" :: n :: op_tokens op_less sp ++ nm :: r) 1) with n.
    change (tk (str "-" :: n :: op_tokens op_less sp ++ nm :: r) 2) with (tk (op_tokens op_less sp ++ nm :: r) 0).
    change (tk (str "-" :: n :: op_tokens op_less sp ++ nm :: r) 3) with (tk (op_tokens op_less sp ++ nm :: r) 1).
    change (text_eqb (str "-") (str "+") || text_eqb (str "-") (str "-")) with true. cbv iota.
    rewrite (read_num dn n Hlo). cbn [pbind bind]. rewrite Hop. cbn [bind with_sign length]. rewrite Nat.add_comm. reflexivity.
  - change (tk (n :: op_tokens op_less sp ++ nm :: r) 0) with n.
    change (tk (n :: op_tokens op_less sp ++ nm :: r) 1) with (tk (op_tokens op_less sp ++ nm :: r) 0).
    change (tk (n :: op_tokens op_less sp ++ nm :: r) 2) with (tk (op_tokens op_less sp ++ nm :: r) 1).
    rewrite (eqb_str n "+"), (eqb_str n "-") by apply F. cbn [orb].
    rewrite (read_num dn n Hlo). cbn [pbind bind]. rewrite Hop. cbn [bind with_sign length]. rewrite Nat.add_comm. reflexivity.
Qed.
Lemma read_right v sp r : signed_ok dn v ->
  let toks := op_tokens op_less sp ++ signed_tokens v ++ r in
  read_right_bound dn (tk toks 0) (tk toks 1) (tk toks 2) (tk toks 3) =
    P_ok (Some (signed_value dn v, length (op_tokens op_less sp ++ signed_tokens v))).
Proof.
  intros Hv toks. pose proof (read_op_gen op_less sp (signed_tokens v ++ r) (signed_stops v r Hv)) as Hop.
  unfold read_right_bound. subst toks. rewrite Hop.
  assert (Hab : (if Nat.eqb (length (op_tokens op_less sp)) 1
                 then (tk (op_tokens op_less sp ++ signed_tokens v ++ r) 1, tk (op_tokens op_less sp ++ signed_tokens v ++ r) 2)
                 else (tk (op_tokens op_less sp ++ signed_tokens v ++ r) 2, tk (op_tokens op_less sp ++ signed_tokens v ++ r) 3))
                = (tk (signed_tokens v ++ r) 0, tk (signed_tokens v ++ r) 1)) by (destruct sp; reflexivity).
  rewrite Hab, app_length. destruct v as [s n]. unfold signed_ok in Hv. cbn [s_num] in Hv. pose proof (plain_facts _ (num_plain dn _ Hv)) as F.
  unfold signed_value, signed_tokens, tk. destruct s as [[]|]; cbn [s_sign s_num sign_tokens app nth length with_sign].
  - change (text_eqb (str "+") (str "+") || text_eqb (str "+") (str "-")) with true. cbv iota. rewrite (read_num dn n Hv). reflexivity.
  - change (text_eqb (str "-") (str "+") || text_eqb (str "-") (str "-")) with true. cbv iota. rewrite (read_num dn n Hv). reflexivity.
  - rewrite (eqb_str n "+"), (eqb_str n "-") by apply F. cbn [orb]. rewrite (read_num dn n Hv). reflexivity.
Qed.

Hypothesis Hdn : dops_ok dn.
Definition bound_of (b : bline) : bound :=
  match b with
  | B_upper nm sp v => mk_bound (d_zero dn) (signed_value dn v) nm (length (bline_tokens b))
  | B_range lo sp1 nm sp2 hi => mk_bound (signed_value dn lo) (signed_value dn hi) nm (length (bline_tokens b))
  end.
Lemma read_bline N b t r : bline_ok dn N b -> name_ok dn (bline_name b) -> (forall i, i < 10 -> t i = tk (bline_tokens b ++ r) i) ->
  read_bound dn t = P_ok (Some (bound_of b)).
Proof.
  intros [Hin Hb] Hnm Ht. pose proof (name_plain dn _ Hnm) as Hp. destruct b as [nm sp v|lo sp1 nm sp2 hi]; cbn [bline_name bline_tokens] in *.
  - destruct Hb as [Hsn [Hv _]]. chars. unfold read_bound. rewrite !Ht by lia.
    change ((nm :: op_tokens op_less sp ++ signed_tokens v) ++ r) with (nm :: (op_tokens op_less sp ++ signed_tokens v) ++ r).
    rewrite <- app_assoc. set (T := op_tokens op_less sp ++ signed_tokens v ++ r).
    change (tk (nm :: T) 0) with nm. change (tk (nm :: T) 1) with (tk T 0). change (tk (nm :: T) 2) with (tk T 1).
    change (tk (nm :: T) 3) with (tk T 2). change (tk (nm :: T) 4) with (tk T 3).
    rewrite Hsn, (name_starts dn _ Hnm), (name_read_name dn _ Hnm). unfold T at 1. rewrite op_head. unfold T. rewrite (read_right v sp r Hv). reflexivity.
  - destruct Hb as [Hlo [Hhi [_ [_ Hgt]]]]. unfold read_bound. rewrite !Ht by lia.
    replace ((signed_tokens lo ++ op_tokens op_less sp1 ++ nm :: op_tokens op_less sp2 ++ signed_tokens hi) ++ r)
      with (signed_tokens lo ++ op_tokens op_less sp1 ++ nm :: op_tokens op_less sp2 ++ signed_tokens hi ++ r) in *
      by (repeat (rewrite <- app_assoc || cbn [app]); reflexivity).
    set (T := op_tokens op_less sp2 ++ signed_tokens hi ++ r) in *.
    assert (Hs : starts_with_number (tk (signed_tokens lo ++ op_tokens op_less sp1 ++ nm :: T) 0) = true).
    { destruct lo as [[[]|] n]; unfold signed_ok in Hlo; cbn [s_num] in Hlo; try reflexivity.
      destruct Hlo as [[c [q [-> Hc]]] _]. cbn [signed_tokens sign_tokens s_sign s_num app tk nth starts_with_number].
      pose proof (num_start_facts c Hc) as F. destruct F as [_ [F _]]. rewrite F. apply orb_true_r. }
    rewrite Hs, (read_left lo sp1 nm T Hlo Hp). cbn [pbind].
    assert (Hlen : length (signed_tokens lo ++ op_tokens op_less sp1) <= 4).
    { rewrite app_length. destruct lo as [[[]|] ?], sp1; cbn; lia. }
    set (n := length (signed_tokens lo ++ op_tokens op_less sp1)) in *.
    assert (Htn : forall j, n + j < 10 -> t (n + j) = tk (nm :: T) j).
    { intros j Hj. rewrite Ht by exact Hj. rewrite app_assoc. apply tk_app_plus. }
    rewrite <- (Nat.add_0_r n) at 1. rewrite Htn by lia. change (tk (nm :: T) 0) with nm. rewrite (name_read_name dn _ Hnm).
    replace (S n) with (n + 1) by lia. replace (n + 1 + 1) with (n + 2) by lia. replace (n + 1 + 2) with (n + 3) by lia. replace (n + 1 + 3) with (n + 4) by lia.
    rewrite !Htn by lia. change (tk (nm :: T) 1) with (tk T 0). change (tk (nm :: T) 2) with (tk T 1).
    change (tk (nm :: T) 3) with (tk T 2). change (tk (nm :: T) 4) with (tk T 3).
    unfold T at 1. rewrite op_head. cbn [negb]. unfold T. rewrite (read_right hi sp2 r Hhi). cbn [pbind]. rewrite Hgt.
    unfold bound_of. cbn [bline_tokens]. f_equal. f_equal. f_equal. unfold n. repeat (rewrite app_length; cbn [length]). lia.
Qed.
Lemma bline_len b : 1 <= length (bline_tokens b) < 10.
Proof.
  destruct b as [nm sp v|lo sp1 nm sp2 hi]; cbn [bline_tokens length]; repeat (rewrite app_length; cbn [length]).
  - destruct sp, v as [[[]|] ?]; cbn; lia.
  - destruct sp1, sp2, lo as [[[]|] ?], hi as [[[]|] ?]; cbn; lia.
Qed.
Definition set_bline (b : bline) (v : variable_value) : variable_value := mk_variable_value (bline_min dn b) (bline_max dn b) (v_type v).
Lemma finite_min d : finite dn d -> bound_min dn d = P_ok (int_of dn d).
Proof. intros [H1 [H2 H3]]. unfold bound_min, int_of. rewrite H3. destruct (d_int dn d) eqn:E; [ reflexivity | destruct (H1 E) ]. Qed.
Lemma finite_max d : finite dn d -> bound_max dn d = P_ok (int_of dn d).
Proof. intros [H1 [H2 H3]]. unfold bound_max, int_of. rewrite H2. destruct (d_int dn d) eqn:E; [ reflexivity | destruct (H1 E) ]. Qed.
Lemma set_bline_ok N h b : NoDup N -> bline_ok dn N b ->
  set_bound_variable dn (bound_of b) (vars_of N h) = P_ok (vars_of N (fun x => if text_eqb x (bline_name b) then set_bline b (h x) else h x)).
Proof.
  intros Hd [Hin Hb]. unfold set_bound_variable, get_variable. destruct Hdn as [Hz1 [Hz2 _]].
  assert (Hz : bound_min dn (d_zero dn) = P_ok 0%Z) by (unfold bound_min; rewrite Hz2, Hz1; reflexivity).
  destruct b as [nm sp v|lo sp1 nm sp2 hi]; cbn [bound_of bd_name bd_min bd_max bline_name v_names vars_of] in *;
    rewrite (name_index_in _ _ Hin); cbn [or_error pbind].
  - destruct Hb as [_ [_ Hf]]. rewrite Hz, (finite_max _ Hf). cbn [pbind]. apply set_value_ok; assumption.
  - destruct Hb as [_ [_ [Hf1 [Hf2 _]]]]. rewrite (finite_min _ Hf1), (finite_max _ Hf2). cbn [pbind]. apply set_value_ok; assumption.
Qed.

Lemma bline_head N b r : bline_ok dn N b -> name_ok dn (bline_name b) -> exists x y, bline_tokens b ++ r = x :: y /\ is_keyword x = false.
Proof.
  intros [_ Hb] Hn. destruct b as [nm sp v|lo sp1 nm sp2 hi]; cbn [bline_tokens bline_name] in *.
  - eexists _, _. split; [ reflexivity |]. apply Hn.
  - rewrite <- app_assoc. destruct (signed_head dn lo ((op_tokens op_less sp1 ++ nm :: op_tokens op_less sp2 ++ signed_tokens hi) ++ r)) as [x [y [E [_ [Hk _]]]]];
      [ apply Hb |]. eauto.
Qed.
Lemma bounds_loop_ok : forall l fuel b h N r, NoDup N -> Forall (name_ok dn) N -> Forall (bline_ok dn N) l -> NoDup (map bline_name l) ->
  repr b (flat_map bline_tokens l ++ r) -> is_keyword (tk r 0) = true -> length l <= fuel ->
  exists b', bounds_loop dn fuel b (vars_of N h) =
      P_ok (b', vars_of N (fun x => match find (fun k => text_eqb (bline_name k) x) l with Some k => set_bline k (h x) | None => h x end)) /\ repr b' r.
Proof.
  induction l as [ |k l IH ]; intros fuel b h N r Hd HN Hok Hnd HR Hk Hf.
  { exists b. split; [ | exact HR ]. cbn [flat_map app] in HR. pose proof (repr_first _ _ HR) as E.
    destruct fuel; cbn [bounds_loop]; rewrite E, Hk; reflexivity. }
  inversion Hok; subst x l0. inversion Hnd; subst x l0. destruct fuel as [ |fuel ]; [ cbn in Hf; lia |]. cbn [length] in Hf.
  cbn [flat_map] in HR. rewrite <- app_assoc in HR.
  assert (Hn : name_ok dn (bline_name k)) by (rewrite Forall_forall in HN; apply HN, H1).
  destruct (bline_head N k (flat_map bline_tokens l ++ r) H1 Hn) as [x [y [E Hx]]].
  cbn [bounds_loop]. rewrite (repr_first _ _ HR). replace (tk (bline_tokens k ++ flat_map bline_tokens l ++ r) 0) with x by (rewrite E; reflexivity). rewrite Hx.
  rewrite (read_bline N k (token_at b) (flat_map bline_tokens l ++ r) H1 Hn) by (intros i Hi; apply token_at_ok; assumption).
  cbn [pbind or_error]. rewrite (set_bline_ok N h k Hd H1). cbn [pbind].
  replace (bd_read (bound_of k)) with (length (bline_tokens k)) by (destruct k; reflexivity).
  destruct (pop_app _ _ _ HR (bline_len k)) as [b1 [E1 R1]]. rewrite E1. cbn [or_abort pbind].
  destruct (IH fuel b1 (fun x => if text_eqb x (bline_name k) then set_bline k (h x) else h x) N r) as [b2 [E2 R2]]; auto; [ lia |].
  exists b2. split; [ | exact R2 ]. rewrite E2. f_equal. f_equal. apply vars_of_ext. intros z _. cbn [find]. rewrite (text_eqb_sym (bline_name k) z).
  destruct (text_eqb_spec z (bline_name k)) as [->|Hz]; [ | reflexivity ].
  replace (find (fun k0 => text_eqb (bline_name k0) (bline_name k)) l) with (@None bline); [ reflexivity |].
  symmetry. destruct (find (fun k0 => text_eqb (bline_name k0) (bline_name k)) l) as [k0|] eqn:Ef; [ | reflexivity ].
  apply find_some in Ef. destruct Ef as [Hi Ek]. exfalso. apply H3. apply in_map_iff. exists k0. destruct (text_eqb_spec (bline_name k0) (bline_name k)); [ auto | discriminate ].
Qed.

(** binary and general *)
Lemma names_loop_ok (set : text -> variables -> pres variables) (f : variable_value -> variable_value) N :
  (forall v, f (f v) = f v) ->
  (forall nm h, In nm N -> set nm (vars_of N h) = P_ok (vars_of N (fun x => if text_eqb x nm then f (h x) else h x))) ->
  Forall (name_ok dn) N ->
  forall l fuel b h r, Forall (fun nm => In nm N) l -> repr b (flat_map (fun nm => [nm]) l ++ r) -> is_keyword (tk r 0) = true -> length l <= fuel ->
  exists b', names_loop set fuel b (vars_of N h) = P_ok (b', vars_of N (fun x => if mem x l then f (h x) else h x)) /\ repr b' r.
Proof.
  intros Hff Hset HN. induction l as [ |nm l IH ]; intros fuel b h r Hok HR Hk Hf.
  { exists b. split; [ | exact HR ]. cbn [flat_map app] in HR. pose proof (repr_first _ _ HR) as E.
    destruct fuel; cbn [names_loop]; rewrite E, Hk; reflexivity. }
  inversion Hok; subst x l0. destruct fuel as [ |fuel ]; [ cbn in Hf; lia |]. cbn [length] in Hf. cbn [flat_map app] in HR.
  cbn [names_loop]. rewrite (repr_first _ _ HR). change (tk (nm :: flat_map (fun nm => [nm]) l ++ r) 0) with nm.
  assert (Hn : name_ok dn nm) by (rewrite Forall_forall in HN; apply HN; assumption).
  rewrite (name_not_keyword dn _ Hn), (Hset nm h H1). cbn [pbind].
  destruct (pop_front_ok _ _ HR) as [b1 [E1 R1]]. rewrite E1. cbn [or_abort pbind tl] in *.
  destruct (IH fuel b1 (fun x => if text_eqb x nm then f (h x) else h x) r) as [b2 [E2 R2]]; auto; [ lia |].
  exists b2. split; [ | exact R2 ]. rewrite E2. f_equal. f_equal. apply vars_of_ext. intros z _. cbn [mem existsb].
  fold (mem z l). destruct (text_eqb z nm), (mem z l); cbn [orb]; rewrite ?Hff; reflexivity.
Qed.
Lemma set_boolean_ok N nm h : NoDup N -> In nm N ->
  set_boolean_variable nm (vars_of N h) = P_ok (vars_of N (fun x => if text_eqb x nm then mk_variable_value 0 1 vt_binary else h x)).
Proof.
  intros Hd Hin. unfold set_boolean_variable, get_variable. cbn [v_names vars_of]. rewrite (name_index_in _ _ Hin). cbn [or_error pbind].
  apply set_value_ok; assumption.
Qed.
Lemma set_integer_ok N nm h : NoDup N -> In nm N ->
  set_integer_variable nm (vars_of N h) = P_ok (vars_of N (fun x => if text_eqb x nm then mk_variable_value (v_min (h x)) (v_max (h x)) vt_general else h x)).
Proof.
  intros Hd Hin. unfold set_integer_variable, get_variable. cbn [v_names vars_of]. rewrite (name_index_in _ _ Hin). cbn [or_error pbind].
  apply set_value_ok; assumption.
Qed.

(** ** Keywords *)
Lemma any_keyword w kws : any_of w kws = true -> (forall k, In k kws -> is_keyword k = true) -> is_keyword w = true.
Proof.
  unfold any_of. intros H Hk. apply existsb_exists in H. destruct H as [k [H1 H2]]. specialize (Hk k H1).
  unfold is_keyword in *. apply existsb_exists in Hk. destruct Hk as [k2 [H3 H4]]. apply existsb_exists. exists k2. split; [ exact H3 |].
  apply are_equal_iff in H2, H4. apply are_equal_iff. congruence.
Qed.
Lemma kw_not_other w kws kws' : any_of w kws = true -> (forall k k', In k kws -> In k' kws' -> are_equal k k' = false) -> any_of w kws' = false.
Proof.
  unfold any_of. intros H Hk. apply existsb_exists in H. destruct H as [k [H1 H2]].
  destruct (existsb (are_equal w) kws') eqn:E; [ | reflexivity ]. apply existsb_exists in E. destruct E as [k' [H3 H4]].
  specialize (Hk k k' H1 H3). apply are_equal_iff in H2, H4. assert (are_equal k k' = true) by (apply are_equal_iff; congruence). congruence.
Qed.
Lemma keyword_not_colon w : is_keyword w = true -> are_equal w (str ":") = false.
Proof.
  intros H. destruct (are_equal w (str ":")) eqn:E; [ | reflexivity ]. exfalso.
  unfold is_keyword in H. apply existsb_exists in H. destruct H as [k [H1 H2]]. apply are_equal_iff in H2, E.
  assert (are_equal k (str ":") = true) by (apply are_equal_iff; congruence).
  assert (Hf : forallb (fun k => negb (are_equal k (str ":"))) keywords = true) by reflexivity. rewrite forallb_forall in Hf. specialize (Hf k H1). rewrite H in Hf. discriminate.
Qed.
End Doc.
