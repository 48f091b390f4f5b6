(** Property theorems C154: LP files that are cut. *)
From Coq Require Import Ascii String Lia.
From Verif Require Import Base Problem_model ResultIO_model Chars_spec Lexer_model Lexer_spec Lexer_proofs Lexer_props Parser_model Parser_spec
  Parser_concrete Parser_props Writer_model Writer_spec Writer_proofs2 Writer_props Cut_spec Cut_proofs.
Open Scope string_scope.
Open Scope list_scope.
Open Scope nat_scope.

(** ** C154 *)
(** A text that is accepted ends with the word end, which a colon may follow: a file that lost its end is refused. *)
Theorem C154_accepted_files_end : forall {D : Type} (dn : dops D) (t : text) (fuel : nat) p,
  readable t -> ends_plain t -> make_problem dn fuel t = P_ok p ->
  exists pre e, (file_tokens t = pre ++ [e] \/ file_tokens t = pre ++ [e; str ":"]) /\ same_word e (str "end") = true.
Proof. intros D dn t fuel p. apply accepted_end. Qed.
Print Assumptions C154_accepted_files_end.

(** A document without comments, whose names and labels do not start with the letters end: a cut of its text is
    refused or read as the whole text. *)
Theorem C154_cut_documents_partial : forall {D : Type} (dn : dops D) (d : document) (ty : objective_type) (t c : text) (fuel : nat) p,
  dops_ok dn -> readable t -> without_comment t -> file_tokens t = document_tokens d -> document_ok dn ty d ->
  Forall (fun w => end_like w = false) (document_names d ++ document_labels d) ->
  length (file_tokens t) <= fuel -> cut_of c t ->
  make_problem dn fuel c = P_ok p -> make_problem dn fuel t = P_ok p.
Proof. intros D dn d ty t c fuel p H1 H2 H3 H4 H5 H6 H7 H8 H9. exact (proj1 (cut_document dn d ty t c fuel p H1 H2 H3 H4 H5 H6 H7 H8 H9)). Qed.
Print Assumptions C154_cut_documents_partial.

(** The writing of a problem is interrupted anywhere: what is left is refused, or it is the whole problem and no word is missing. *)
Theorem C154_cut_written_files_partial : forall {D : Type} (dn : dops D) (p : raw_problem (D := D)),
  dops_ok dn -> writable dn p ->
  Forall (fun w => end_like w = false) (v_names (rw_vars p) ++ map c_label (rw_equal p ++ rw_greater p ++ rw_less p)) ->
  exists t p' s, write_problem dn p = Some t /\ renumbered s p p' /\
    forall c fuel q, cut_of c t -> length (file_tokens t) <= fuel -> make_problem dn fuel c = P_ok q -> q = p' /\ file_tokens c = file_tokens t.
Proof. intros D dn p. apply cut_written. Qed.
Print Assumptions C154_cut_written_files_partial.
(** The problem of C24: cut in its last section it is refused, without its last line feed it is the whole problem. *)
Example C154_ex : writable_integers ex_problem /\
  Forall (fun w => end_like w = false) (v_names (rw_vars ex_problem) ++ map c_label (rw_equal ex_problem ++ rw_greater ex_problem ++ rw_less ex_problem)) /\
  exists t, write_problem xdops ex_problem = Some t /\
    make_problem xdops 100 (firstn (length t - 2) t) = P_error bad_general /\
    (exists p, make_problem xdops 100 (firstn (length t - 1) t) = P_ok p /\ make_problem xdops 100 t = P_ok p).
Proof.
  split; [exact ex_writable|]. split; [repeat constructor|]. eexists. split; [vm_compute; reflexivity|]. split; [vm_compute; reflexivity|].
  eexists. split; [vm_compute; reflexivity|vm_compute; reflexivity].
Qed.

(** With a label that starts with end, the cut file is accepted, a constraint and the bounds are lost. *)
Theorem C154_refuted : exists t c p q, readable t /\ ends_plain t /\ without_comment t /\ cut_of c t /\
  make_problem xdops 100 t = P_ok p /\ make_problem xdops 100 c = P_ok q /\
  length (rw_equal p) = 1 /\ rw_equal q = [] /\
  map v_max (v_values (rw_vars p)) = [1; 1]%Z /\ map v_max (v_values (rw_vars q)) = [int_max; int_max].
Proof.
  exists (text_of ["minimize"; "x + y"; "subject to"; "cover: x + y >= 1"; "end_date: x = 1"; "bounds"; "x <= 1"; "y <= 1"; "end"]).
  exists (str "minimize" ++ nl :: str "x + y" ++ nl :: str "subject to" ++ nl :: str "cover: x + y >= 1" ++ nl :: str "end").
  eexists _, _. split; [apply readable_check; vm_compute; reflexivity|]. split; [vm_compute; reflexivity|]. split; [vm_compute; repeat constructor|].
  split; [eexists; vm_compute; reflexivity|]. split; [vm_compute; reflexivity|]. split; [vm_compute; reflexivity|]. repeat split.
Qed.
Print Assumptions C154_refuted.
