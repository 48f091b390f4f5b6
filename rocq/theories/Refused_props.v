(** Property theorem C161: the error of a refused file. *)
From Coq Require Import Ascii String QArith Lia.
From Verif Require Import Base Problem_model ResultIO_model Chars_spec Lexer_model Lexer_spec Lexer_proofs Lexer_props Parser_model Parser_spec
  Parser_proofs Parser_proofs2 Parser_concrete Accept_spec Accept_proofs3 Accept_proofs6 Accept_props Refused_spec Refused_proofs.
Open Scope string_scope.
Open Scope list_scope.
Open Scope nat_scope.

(** C161. When a file without square brackets is refused with an error, the error names the first section that cannot be read: the direction, the
    objective, the constraints, the bounds, the binary variables, the general variables or the end; every section before it can be read. A file that stops
    after its last constraint has no end. [d_scan dn [] = None]: no character is not a number. *)
Theorem C161_error_names_the_section : forall {D : Type} (dn : dops D) (t : text) (fuel : nat) (e : tag),
  d_scan dn [] = None -> readable t -> ends_plain t -> ~ In (str "[") (file_tokens t) -> Forall (usual_word dn) (file_tokens t) -> length (file_tokens t) <= fuel ->
  make_problem dn fuel t = P_error e -> first_fault dn e (file_tokens t).
Proof. intros D dn t fuel e. exact (make_problem_refused dn fuel t e). Qed.
Print Assumptions C161_error_names_the_section.
(** So the error of the quadratic part is never given to such a file, and an error about the binary or the general variables means that the file is
    readable up to this section, where a word that is not a keyword is not the name of a variable, or where no keyword comes. *)
Theorem C161_unknown_name : forall {D : Type} (dn : dops D) (t : text) (fuel : nat) (e : tag),
  d_scan dn [] = None -> readable t -> ends_plain t -> ~ In (str "[") (file_tokens t) -> Forall (usual_word dn) (file_tokens t) -> length (file_tokens t) <= fuel ->
  make_problem dn fuel t = P_error e -> e <> bad_objective_quadratic /\
  (e = bad_binary \/ e = bad_general -> exists before N more, file_tokens t = before ++ more /\
     (if match e with bad_binary => true | _ => false end then exists t4, to_binary dn (file_tokens t) N t4 /\ announced in_binary t4 more
      else exists t5, to_general dn (file_tokens t) N t5 /\ announced in_general t5 more) /\
     (Forall (fun w => keyword w = false) more \/ exists l w rest, more = l ++ w :: rest /\ Forall (fun nm => In nm N) l /\ keyword w = false /\ ~ In w N)).
Proof.
  intros D dn t fuel e H0 H1 H2 H3 H4 H5 H. pose proof (make_problem_refused dn fuel t e H0 H1 H2 H3 H4 H5 H) as F.
  assert (Tail : forall N more, (forall l rest, ~ list_part (fun nm : text => [nm]) (fun nm => In nm N) l more rest) ->
    Forall (fun w => keyword w = false) more \/ exists l w rest, more = l ++ w :: rest /\ Forall (fun nm => In nm N) l /\ keyword w = false /\ ~ In w N).
  { intros N more. assert (Q : forall done, Forall (fun nm => In nm N) done -> Forall (fun w => keyword w = false) done -> (forall l rest, ~ list_part (fun nm : text => [nm]) (fun nm => In nm N) l (done ++ more) rest) ->
      Forall (fun w => keyword w = false) (done ++ more) \/ exists l w rest, done ++ more = l ++ w :: rest /\ Forall (fun nm => In nm N) l /\ keyword w = false /\ ~ In w N).
    { induction more as [|w more IH]; intros done Hd Hk Hno; [left; rewrite app_nil_r; exact Hk|]. destruct (keyword w) eqn:K.
      - exfalso. apply (Hno done (w :: more)). split; [|split; [exact Hd|exact K]]. f_equal. clear. induction done as [|x done IH]; [reflexivity|]. cbn [flat_map app]. rewrite <- IH. reflexivity.
      - destruct (in_dec (list_eq_dec ascii_dec) w N) as [I|I]; [|right; exists done, w, more; auto].
        specialize (IH (done ++ [w])). rewrite <- app_assoc in IH. cbn [app] in IH. apply IH; [apply Forall_app; split; [exact Hd|constructor; [exact I|constructor]]|
          apply Forall_app; split; [exact Hk|constructor; [exact K|constructor]]|exact Hno]. }
    intros Hno. apply (Q [] (Forall_nil _) (Forall_nil _) Hno). }
  assert (Cs : forall s a b, constraints_section dn s a b -> exists f, a = f ++ b).
  { intros [[h l]|] a b Hc; [|exists []; apply Hc]. destruct Hc as (_ & m & -> & _ & Hp & _). exists (header_tokens h ++ flat_map row_tokens l). rewrite <- app_assoc, <- Hp. reflexivity. }
  assert (Ls : forall A kw (f : A -> list text) P s a b, list_section kw f P s a b -> exists g, a = g ++ b).
  { intros A kw f P [l|] a b Hc; [|exists []; apply Hc]. destruct Hc as (m & (h & w & _ & _ & -> & _) & Hp & _). exists (header_tokens h ++ flat_map f l). rewrite <- app_assoc, <- Hp. reflexivity. }
  assert (An : forall kw a b, announced kw a b -> exists g, a = g ++ b) by (intros kw a b (h & w & _ & _ & -> & _); eauto).
  assert (Tb : forall toks N r, to_binary dn toks N r -> exists g, toks = g ++ r).
  { intros toks N r (s & t3 & (l & s' & t2 & (t1 & (w & ty & lb & _ & _ & _ & ->) & (-> & _)) & H6 & _) & H7). destruct (Cs _ _ _ H6) as [g1 ->]. destruct (Ls _ _ _ _ _ _ _ H7) as [g2 ->].
    exists (w :: label_tokens lb ++ flat_map item_tokens l ++ g1 ++ g2). cbn [app]. rewrite <- !app_assoc. reflexivity. }
  assert (Tg : forall toks N r, to_general dn toks N r -> exists g, toks = g ++ r).
  { intros toks N r (s & t4 & H6 & H7). destruct (Tb _ _ _ H6) as [g1 ->]. destruct (Ls _ _ _ _ _ _ _ H7) as [g2 ->]. exists (g1 ++ g2). rewrite <- app_assoc. reflexivity. }
  split; [intros ->; inversion F|]. intros He. inversion F; subst e; try (exfalso; destruct He; discriminate).
  - match goal with K : to_binary _ _ _ ?t4 |- _ => destruct (Tb _ _ _ K) as [g1 E1] end. match goal with K : announced _ _ _ |- _ => destruct (An _ _ _ K) as [g2 E2] end.
    exists (g1 ++ g2), N, more. split; [rewrite <- app_assoc, <- E2; exact E1|]. split; [eauto|]. apply Tail. assumption.
  - match goal with K : to_general _ _ _ ?t4 |- _ => destruct (Tg _ _ _ K) as [g1 E1] end. match goal with K : announced _ _ _ |- _ => destruct (An _ _ _ K) as [g2 E2] end.
    exists (g1 ++ g2), N, more. split; [rewrite <- app_assoc, <- E2; exact E1|]. split; [eauto|]. apply Tail. assumption.
Qed.
Print Assumptions C161_unknown_name.

(** A file for each error. *)
Definition rx_files : list (text * tag) :=
  [(text_of ["maxi x st x >= 1 end"], bad_objective_function_type);
   (text_of ["max x + a/b st x >= 1 end"], bad_objective);
   (text_of ["max x st x >= 1"; "x + a/b >= 1 end"], bad_constraint);
   (text_of ["max x st x >= 1 bounds"; "x <= 1 y <= 2 end"], bad_bound);
   (text_of ["max x st x >= 1 binary x y end"], bad_binary);
   (text_of ["max x st x >= 1 binary x general z end"], bad_general);
   (text_of ["max x st x >= 1 binary x bounds x <= 1 end"], bad_end);
   (text_of ["max x st x >= 1"], bad_end);
   (text_of ["max x st x >= 1 end x"], bad_end_of_file)].
Example C161_ex : d_scan xdops [] = None /\ Forall (fun q => let t := fst q in
  readable t /\ ends_plain t /\ ~ In (str "[") (file_tokens t) /\ Forall (usual_word xdops) (file_tokens t) /\ length (file_tokens t) <= 100 /\
  make_problem xdops 100 t = P_error (snd q)) rx_files.
Proof.
  split; [reflexivity|]. unfold rx_files. repeat match goal with |- Forall _ (_ :: _) => constructor | |- Forall _ [] => constructor end; cbv zeta; cbn [fst snd];
  (split; [apply readable_check; vm_compute; reflexivity|]; split; [vm_compute; reflexivity|]; split; [vm_compute; intuition discriminate|];
   split; [apply usual_checked; vm_compute; reflexivity|]; split; [vm_compute; lia|vm_compute; reflexivity]).
Qed.
