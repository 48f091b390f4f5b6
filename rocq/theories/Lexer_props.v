(** Property theorems C20 and C68: the tokens the parser sees. *)
From Coq Require Import Ascii String.
From Verif Require Import Base Problem_model ResultIO_model Chars_spec Lexer_model Lexer_spec Lexer_proofs Parser_concrete.
Open Scope string_scope.
Open Scope list_scope.
Open Scope nat_scope.

(** Requests to the buffer: pop_front() and pop_front(n). *)
Inductive request := Pop_front | Pop (n : nat).
Definition popped (r : request) : nat := match r with Pop_front => 1 | Pop n => n end.
Definition total (rs : list request) : nat := fold_right (fun r n => popped r + n) 0 rs.
Fixpoint requests (rs : list request) (b : sbuf) : option sbuf :=
  match rs with
  | [] => Some b
  | Pop_front :: rs => do b <- pop_front b; requests rs b
  | Pop n :: rs => do b <- pop n b; requests rs b
  end.
Lemma requests_ok : forall rs b toks, Forall (fun r => 1 <= popped r < 10) rs -> repr b toks ->
  exists b', requests rs b = Some b' /\ repr b' (skipn (total rs) toks).
Proof.
  induction rs as [ |r rs IH ]; intros b toks H R; cbn [requests total fold_right]; [ eauto |]. inversion H as [ |? ? Hr Hrs ]; subst. rewrite Nat.add_comm.
  assert (Hs : forall l : list text, skipn (total rs + popped r) l = skipn (total rs) (skipn (popped r) l)).
  { clear. intros l. revert l. induction (popped r) as [ |k IH ]; intros l; [ rewrite Nat.add_0_r; reflexivity |]. rewrite Nat.add_succ_r. destruct l; [ rewrite !skipn_nil; reflexivity | apply IH ]. }
  fold (total rs). rewrite Hs. destruct r as [ |n ]; cbn [popped] in *.
  - destruct (pop_front_ok b toks R) as [b' [-> R']]. cbn [bind]. replace (skipn 1 toks) with (tl toks) by (destruct toks; reflexivity). apply IH; assumption.
  - destruct (pop_ok n b toks R Hr) as [b' [-> R']]. cbn [bind]. apply IH; assumption.
Qed.

(** C20. Whatever the requests (of 1 to 9 tokens, which is what pop_front expects), the ten
    views of the window show the tokens of the file that follow those popped. *)
Theorem C20_window_shows_the_tokens : forall (t : text) (rs : list request),
  readable t -> ends_plain t -> Forall (fun r => 1 <= popped r < 10) rs ->
  exists b0 b, make_buffer t = Some b0 /\ requests rs b0 = Some b /\
    forall i, i < 10 -> token_at b i = nth (total rs + i) (file_tokens t) [].
Proof.
  intros t rs H1 H2 H3. destruct (buffer_tokens t H1 H2) as [b0 [E0 R0]]. destruct (requests_ok rs b0 _ H3 R0) as [b [E R]]. exists b0, b. split; [ exact E0 |]. split; [ exact E |].
  intros i Hi. rewrite (token_at_ok _ _ _ R Hi). clear. generalize (file_tokens t). induction (total rs) as [ |k IH ]; intros l; [ reflexivity |]. destruct l; [ destruct i; reflexivity | apply IH ].
Qed.
Print Assumptions C20_window_shows_the_tokens.
Definition ex_text : text := text_of ["\ a comment"; "max: 3x+2.5y -z"; "st c1:x+ y<=10 \ another"; "end"].
Lemma readable_check t : forallb (fun c => negb (is_nul c)) t && forallb (fun w => Nat.ltb (length w) slot_size) (flat_map words (lines t)) = true -> readable t.
Proof.
  intros H. apply andb_prop in H. destruct H as [H1 H2]. rewrite forallb_forall in H1, H2. split; apply Forall_forall; intros x Hx.
  - specialize (H1 x Hx). destruct (is_nul x); [ discriminate | reflexivity ].
  - apply Nat.ltb_lt, H2, Hx.
Qed.
Example C20_ex : readable ex_text /\ ends_plain ex_text /\
  map string_of_list_ascii (file_tokens ex_text) =
    ["max"; ":"; "3"; "x"; "+"; "2.5"; "y"; "-"; "z"; "st"; "c1"; ":"; "x"; "+"; "y"; "<"; "="; "10"; "end"].
Proof. split; [ apply readable_check; vm_compute; reflexivity |]. split; vm_compute; reflexivity. Qed.
(** A word of more than 511 characters does not fit the array it is read in. *)
Theorem C20_long_word_overflows : forall (w : text), forallb (fun c => negb (isspace c)) w = true -> slot_size <= length w -> make_buffer w = None.
Proof.
  intros w Hw Hl. destruct w as [ |c r ]; [ cbn in Hl; unfold slot_size in Hl; lia |].
  assert (E : forall l, forallb (fun c => negb (isspace c)) l = true -> word_of l = l).
  { induction l as [ |d l IH ]; cbn [forallb word_of]; [ reflexivity |]. intros H. apply andb_prop in H. destruct H as [H1 H2]. destruct (isspace d); [ discriminate |]. rewrite IH by exact H2. reflexivity. }
  unfold make_buffer. cbn [push_back]. unfold next_token. cbn [lx_mem lx_pos lx_cur lx_in repeat nth_error bind slot_size is_nul].
  change (is_nul nul) with true. cbv iota. change ((0 + 1) mod 10) with 1. cbn [nth_error bind fetch].
  pose proof Hw as Hc. cbn [forallb] in Hc. apply andb_prop in Hc. destruct Hc as [Hc _]. destruct (isspace c); [ discriminate |].
  rewrite (E _ Hw). unfold store. destruct (Nat.ltb_spec (length (c :: r)) slot_size); [ lia | reflexivity ].
Qed.
Print Assumptions C20_long_word_overflows.

(** C68. Comments do not change the tokens, unless the last line that is not blank has one. The
    tokens of a file are those of its lines cut at their first word that starts with a
    backslash: see [file_tokens]. *)
Theorem C68_comments_are_ignored_partial : forall (t u : text),
  readable t -> ends_plain t -> readable u -> ends_plain u ->
  map (fun l => uncomment (words l)) (lines t) = map (fun l => uncomment (words l)) (lines u) ->
  exists bt bu, make_buffer t = Some bt /\ make_buffer u = Some bu /\
  forall rs, Forall (fun r => 1 <= popped r < 10) rs -> exists bt' bu', requests rs bt = Some bt' /\ requests rs bu = Some bu' /\
    forall i, i < 10 -> token_at bt' i = token_at bu' i.
Proof.
  intros t u H1 H2 H3 H4 E. destruct (buffer_tokens t H1 H2) as [bt [Et Rt]]. destruct (buffer_tokens u H3 H4) as [bu [Eu Ru]]. exists bt, bu. split; [ exact Et |]. split; [ exact Eu |].
  intros rs Hrs. destruct (requests_ok rs bt _ Hrs Rt) as [bt' [Et' Rt']]. destruct (requests_ok rs bu _ Hrs Ru) as [bu' [Eu' Ru']]. exists bt', bu'. split; [ exact Et' |]. split; [ exact Eu' |].
  intros i Hi. rewrite (token_at_ok _ _ _ Rt' Hi), (token_at_ok _ _ _ Ru' Hi). unfold file_tokens, file_words. rewrite !flat_map_concat_map with (f := fun l => uncomment (words l)), E. reflexivity.
Qed.
Print Assumptions C68_comments_are_ignored_partial.
Example C68_ex :
  let t := text_of ["\ first"; "max x \ cost"; "st"; "end"] in let u := text_of [""; "max x"; "st"; "end"] in
  map (fun l => uncomment (words l)) (lines t) = map (fun l => uncomment (words l)) (lines u) /\ readable t /\ readable u /\ ends_plain t /\ ends_plain u.
Proof. cbv zeta. split; [ vm_compute; reflexivity |]. split; [ apply readable_check; vm_compute; reflexivity |]. split; [ apply readable_check; vm_compute; reflexivity |]. split; vm_compute; reflexivity. Qed.
(** A comment on the last line becomes a token after the last one. *)
Theorem C68_comments_are_ignored_refuted : exists (t : text), readable t /\
  file_tokens t = [str "end"] /\ exists b, make_buffer t = Some b /\ token_at b 0 = str "end" /\ token_at b 1 = str "\".
Proof.
  exists (text_of ["end \ of the file"]). split; [ apply readable_check; vm_compute; reflexivity |]. split; [ vm_compute; reflexivity |].
  eexists. split; [ vm_compute; reflexivity |]. split; vm_compute; reflexivity.
Qed.
Print Assumptions C68_comments_are_ignored_refuted.

(** [same_word] is equality up to case. *)
Theorem same_word_spec : forall a b : text, same_word a b = true <-> map lower a = map lower b.
Proof.
  induction a as [ |c a IH ]; destruct b as [ |d b ]; cbn; try (split; congruence).
  rewrite andb_true_iff, Ascii.eqb_eq, IH. split; [ intros [-> ->]; reflexivity | intros [= -> ->]; auto ].
Qed.
Print Assumptions same_word_spec.
