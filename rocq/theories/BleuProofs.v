(* Sessions with compute_sentence_bleu. *)
From Verif Require Import Prelude TextModel BleuModel.
From Coq Require Import QArith Lia.
Local Open Scope nat_scope.
Local Open Scope list_scope.

Definition is_default (r : lref) : Prop := match r with Own _ => False | _ => True end.
(* the two default lists are as written in the source *)
Definition untouched (s : bsession) : Prop := bs_bleu s = quarters /\ bs_all s = quarters.
Lemma untouched_default s r : untouched s -> is_default r -> contents_of s r = Some quarters.
Proof. intros [A B]. destruct r; cbn; intros H; [rewrite A|rewrite B|destruct H]; reflexivity. Qed.
Lemma set_own s i l : untouched s -> untouched (set_contents s (Own i) l).
Proof. intros H. exact H. Qed.
Lemma calls_grow n s x s' k c : bstep_run n s x = Some s' -> nth_error (bs_calls s) k = Some c -> nth_error (bs_calls s') k = Some c.
Proof.
  assert (G : forall r w, call_with n s r w = Some s' -> nth_error (bs_calls s) k = Some c -> nth_error (bs_calls s') k = Some c).
  { intros r w H Hk. unfold call_with in H. destruct (contents_of s w); [|discriminate]. cbn in H. injection H as <-. cbn. rewrite nth_error_app1; [exact Hk|]. apply nth_error_Some. congruence. }
  destruct x as [l|i l|r w|r w|j l|j]; cbn; intros H Hk.
  - injection H as <-. exact Hk.
  - destruct (nth_error (bs_own s) i); [|discriminate]. injection H as <-. exact Hk.
  - exact (G _ _ H Hk).
  - exact (G _ _ H Hk).
  - destruct (nth_error (bs_calls s) j) as [d|]; [|discriminate]. destruct (bc_outcome d); try discriminate. injection H as <-. destruct (bc_ref d); exact Hk.
  - destruct (nth_error (bs_calls s) j) as [d|]; [|discriminate]. destruct (bc_outcome d); try discriminate. destruct (contents_of s (bc_ref d)); [|discriminate]. injection H as <-. exact Hk.
Qed.
Lemma calls_kept n xs : forall s s' k c, bsession_run n s xs = Some s' -> nth_error (bs_calls s) k = Some c -> nth_error (bs_calls s') k = Some c.
Proof.
  induction xs as [|x xs IH]; intros s s' k c H Hk; cbn in H; [injection H as <-; exact Hk|].
  destruct (bstep_run n s x) as [s1|] eqn:E; [|discriminate]. exact (IH s1 s' k c H (calls_grow n s x s1 k c E Hk)).
Qed.
Definition log_ok (n : nlp) (s : bsession) : Prop :=
  Forall (fun c => bc_outcome c = compute_sentence_bleu n (bc_response c) (bc_used c)) (bs_calls s).
Definition defaults_ok (s : bsession) : Prop := Forall (fun c => is_default (bc_ref c) -> bc_used c = quarters) (bs_calls s).
Lemma step_log n s x s' : bstep_run n s x = Some s' -> log_ok n s -> log_ok n s'.
Proof.
  assert (G : forall r w, call_with n s r w = Some s' -> log_ok n s -> log_ok n s').
  { intros r w H L. unfold call_with in H. destruct (contents_of s w); [|discriminate]. cbn in H. injection H as <-. apply Forall_app. split; [exact L|]. constructor; [reflexivity|constructor]. }
  destruct x as [l|i l|r w|r w|j l|j]; cbn; intros H L.
  - injection H as <-. exact L.
  - destruct (nth_error (bs_own s) i); [|discriminate]. injection H as <-. exact L.
  - exact (G _ _ H L).
  - exact (G _ _ H L).
  - destruct (nth_error (bs_calls s) j) as [d|]; [|discriminate]. destruct (bc_outcome d); try discriminate. injection H as <-. destruct (bc_ref d); exact L.
  - destruct (nth_error (bs_calls s) j) as [d|]; [|discriminate]. destruct (bc_outcome d); try discriminate. destruct (contents_of s (bc_ref d)); [|discriminate]. injection H as <-. exact L.
Qed.
Theorem log_holds n xs : forall s s', bsession_run n s xs = Some s' -> log_ok n s -> log_ok n s'.
Proof.
  induction xs as [|x xs IH]; intros s s' H L; cbn in H; [injection H as <-; exact L|].
  destruct (bstep_run n s x) as [s1|] eqn:E; [|discriminate]. exact (IH s1 s' H (step_log n s x s1 E L)).
Qed.
Theorem defaults_hold n xs : forall s s', bsession_run n s xs = Some s' -> untouched s -> defaults_ok s ->
  (forall k l, In (EditWeights k l) xs -> exists c i, nth_error (bs_calls s') k = Some c /\ bc_ref c = Own i) -> defaults_ok s'.
Proof.
  induction xs as [|x xs IH]; intros s s' H U D N; cbn in H; [injection H as <-; exact D|].
  destruct (bstep_run n s x) as [s1|] eqn:E; [|discriminate].
  assert (N1 : forall k l, In (EditWeights k l) xs -> exists c i, nth_error (bs_calls s') k = Some c /\ bc_ref c = Own i) by (intros k l Hk; apply (N k l); right; exact Hk).
  assert (G : forall r w, call_with n s r w = Some s1 -> untouched s1 /\ defaults_ok s1).
  { intros r w Hc. unfold call_with in Hc. destruct (contents_of s w) as [l|] eqn:Ew; [|discriminate]. cbn in Hc. injection Hc as <-. split; [exact U|].
    apply Forall_app. split; [exact D|]. constructor; [|constructor]. cbn. intros Hd. rewrite (untouched_default s w U Hd) in Ew. congruence. }
  destruct x as [l|i l|r w|r w|j l|j]; cbn in E.
  - injection E as <-. apply (IH _ s' H); [exact U|exact D|exact N1].
  - destruct (nth_error (bs_own s) i); [|discriminate]. injection E as <-. apply (IH _ s' H); [exact U|exact D|exact N1].
  - destruct (G _ _ E) as [U1 D1]. exact (IH s1 s' H U1 D1 N1).
  - destruct (G _ _ E) as [U1 D1]. exact (IH s1 s' H U1 D1 N1).
  - destruct (nth_error (bs_calls s) j) as [d|] eqn:Ej; [|discriminate]. destruct (bc_outcome d); try discriminate. injection E as <-.
    destruct (N j l (or_introl eq_refl)) as (c & i & Hc & Hi).
    assert (nth_error (bs_calls s') j = Some d). { apply (calls_kept n xs _ s' j d H). destruct (bc_ref d); exact Ej. }
    replace c with d in Hi by congruence. rewrite Hi in *. apply (IH _ s' H); [exact U|exact D|exact N1].
  - destruct (nth_error (bs_calls s) j) as [d|]; [|discriminate]. destruct (bc_outcome d); try discriminate. destruct (contents_of s (bc_ref d)); [|discriminate]. injection E as <-.
    apply (IH _ s' H); [exact U|exact D|exact N1].
Qed.
(* a session without in-place changes: every metric shows the weights it was computed with *)
Definition shows_used (s : bsession) : Prop := Forall (fun c => contents_of s (bc_ref c) = Some (bc_used c)) (bs_calls s).
Definition is_edit (x : bstep) : bool := match x with EditList _ _ | EditWeights _ _ => true | _ => false end.
Lemma own_grows s l r c : contents_of s r = Some c -> contents_of (MkBs (bs_bleu s) (bs_all s) (bs_own s ++ [l]) (bs_calls s)) r = Some c.
Proof. destruct r; cbn; intros H; try exact H. rewrite nth_error_app1; [exact H|]. apply nth_error_Some. congruence. Qed.
Theorem used_shown n xs : forall s s', bsession_run n s xs = Some s' -> shows_used s -> forallb (fun x => negb (is_edit x)) xs = true -> shows_used s'.
Proof.
  induction xs as [|x xs IH]; intros s s' H S N; cbn in H; [injection H as <-; exact S|].
  destruct (bstep_run n s x) as [s1|] eqn:E; [|discriminate]. cbn in N. apply andb_true_iff in N. destruct N as [N1 N2]. apply (IH s1 s' H); [|exact N2]. clear IH H N2.
  assert (G : forall r w, call_with n s r w = Some s1 -> shows_used s1).
  { intros r w Hc. unfold call_with in Hc. destruct (contents_of s w) as [l|] eqn:Ew; [|discriminate]. cbn in Hc. injection Hc as <-.
    apply Forall_app. split; [exact S|]. constructor; [exact Ew|constructor]. }
  destruct x as [l|i l|r w|r w|j l|j]; cbn in E; try discriminate N1.
  - injection E as <-. apply Forall_forall. intros c Hc. apply own_grows. exact (proj1 (Forall_forall _ _) S c Hc).
  - exact (G _ _ E).
  - exact (G _ _ E).
  - destruct (nth_error (bs_calls s) j) as [d|]; [|discriminate]. destruct (bc_outcome d); try discriminate. destruct (contents_of s (bc_ref d)) as [l|]; [|discriminate]. injection E as <-.
    apply Forall_forall. intros c Hc. apply own_grows. exact (proj1 (Forall_forall _ _) S c Hc).
Qed.

(* SPEC: the list object a call is given *)
Definition list_given (x : bstep) : list lref :=
  match x with
  | Bleu _ None => [DefaultBleu]
  | All _ None => [DefaultAll]
  | Bleu _ (Some i) | All _ (Some i) => [Own i]
  | _ => []
  end.
(* SPEC: the list object a step writes, and what it writes *)
Definition written (s : bsession) (x : bstep) : option (lref * list flt) :=
  match x with
  | EditList i l => Some (Own i, l)
  | EditWeights k l => option_map (fun c => (bc_ref c, l)) (nth_error (bs_calls s) k)
  | _ => None
  end.
Lemma call_with_ref n s r w s' : call_with n s r w = Some s' -> map bc_ref (bs_calls s') = map bc_ref (bs_calls s) ++ [w].
Proof. unfold call_with. destruct (contents_of s w); [|discriminate]. intros H. injection H as <-. cbn. rewrite map_app. reflexivity. Qed.
Lemma set_calls s r l : bs_calls (set_contents s r l) = bs_calls s.
Proof. destruct r; reflexivity. Qed.
Lemma step_kept n s x s' : bstep_run n s x = Some s' -> map bc_ref (bs_calls s') = map bc_ref (bs_calls s) ++ list_given x.
Proof.
  destruct x as [l|i l|r w|r w|k l|k]; cbn [bstep_run list_given]; rewrite ?app_nil_r.
  - intros H. injection H as <-. reflexivity.
  - destruct (nth_error (bs_own s) i); [|discriminate]. intros H. injection H as <-. reflexivity.
  - destruct w; apply call_with_ref.
  - destruct w; apply call_with_ref.
  - destruct (nth_error (bs_calls s) k) as [c|]; [|discriminate]. destruct (bc_outcome c); try discriminate. intros H. injection H as <-. rewrite set_calls. reflexivity.
  - destruct (nth_error (bs_calls s) k) as [c|]; [|discriminate]. destruct (bc_outcome c); try discriminate.
    destruct (contents_of s (bc_ref c)); [|discriminate]. intros H. injection H as <-. reflexivity.
Qed.
Theorem session_kept n xs : forall s s', bsession_run n s xs = Some s' -> map bc_ref (bs_calls s') = map bc_ref (bs_calls s) ++ flat_map list_given xs.
Proof.
  induction xs as [|x t IH]; intros s s' H; cbn in H |- *.
  - injection H as <-. rewrite app_nil_r. reflexivity.
  - destruct (bstep_run n s x) as [s1|] eqn:E; [|discriminate]. rewrite (IH _ _ H), (step_kept _ _ _ _ E), app_assoc. reflexivity.
Qed.
Lemma nth_replaced {A} (l : list A) i x j : i < List.length l -> nth_error (firstn i l ++ x :: skipn (S i) l) j = if Nat.eqb j i then Some x else nth_error l j.
Proof.
  intros H. destruct (Nat.eqb_spec j i) as [->|N].
  - rewrite nth_error_app2; rewrite firstn_length_le; try lia. rewrite Nat.sub_diag. reflexivity.
  - destruct (Nat.lt_ge_cases j i) as [L|L].
    + rewrite nth_error_app1 by (rewrite firstn_length_le; lia). rewrite <- (firstn_skipn i l) at 2. rewrite nth_error_app1 by (rewrite firstn_length_le; lia). reflexivity.
    + rewrite nth_error_app2; rewrite firstn_length_le; try lia. replace (j - i) with (S (j - S i)) by lia. cbn [nth_error].
      rewrite <- (firstn_skipn (S i) l) at 2. rewrite nth_error_app2; rewrite firstn_length_le; try lia. reflexivity.
Qed.
Lemma set_contents_at s w l0 l r : contents_of s w = Some l0 ->
  contents_of (set_contents s w l) r = if lref_eqb r w then Some l else contents_of s r.
Proof.
  intros H. destruct w as [| |i], r as [| |j]; try reflexivity. cbn in *. apply nth_replaced. apply nth_error_Some. rewrite H. discriminate.
Qed.
(* every list a metric keeps exists *)
Definition lists_exist (s : bsession) : Prop := forall c, In c (bs_calls s) -> contents_of s (bc_ref c) <> None.
Lemma step_contents n s x s' : lists_exist s -> bstep_run n s x = Some s' ->
  forall r l, contents_of s r = Some l ->
  contents_of s' r = Some (match written s x with Some (w, l') => if lref_eqb r w then l' else l | None => l end).
Proof.
  intros E H r l Hr. destruct x as [m|i m|q w|q w|k m|k]; cbn [bstep_run written] in *.
  - injection H as <-. apply own_grows, Hr.
  - destruct (nth_error (bs_own s) i) as [m'|] eqn:F; [|discriminate]. injection H as <-.
    etransitivity; [exact (set_contents_at s (Own i) m' m r F)|]. destruct (lref_eqb r (Own i)); [reflexivity|exact Hr].
  - unfold call_with in H. destruct (contents_of s (match w with Some i => Own i | None => DefaultBleu end)); [|discriminate]. injection H as <-. destruct r; exact Hr.
  - unfold call_with in H. destruct (contents_of s (match w with Some i => Own i | None => DefaultAll end)); [|discriminate]. injection H as <-. destruct r; exact Hr.
  - destruct (nth_error (bs_calls s) k) as [c|] eqn:F; [|discriminate]. destruct (bc_outcome c); try discriminate. injection H as <-. cbn [option_map].
    destruct (contents_of s (bc_ref c)) as [l0|] eqn:G; [|exfalso; exact (E c (nth_error_In _ _ F) G)].
    etransitivity; [exact (set_contents_at s (bc_ref c) l0 m r G)|]. destruct (lref_eqb r (bc_ref c)); [reflexivity|exact Hr].
  - destruct (nth_error (bs_calls s) k) as [c|]; [|discriminate]. destruct (bc_outcome c); try discriminate.
    destruct (contents_of s (bc_ref c)); [|discriminate]. injection H as <-. apply own_grows, Hr.
Qed.
Lemma step_exist n s x s' : lists_exist s -> bstep_run n s x = Some s' -> lists_exist s'.
Proof.
  intros E H c Hc.
  assert (G : contents_of s (bc_ref c) <> None).
  { assert (K := step_kept n s x s' H). assert (I : In (bc_ref c) (map bc_ref (bs_calls s'))) by (apply in_map, Hc). rewrite K in I. apply in_app_or in I. destruct I as [I|I].
    - apply in_map_iff in I. destruct I as (c' & <- & I). apply E, I.
    - destruct x as [m|i m|q [i|]|q [i|]|k m|k]; cbn in I; try contradiction; destruct I as [<-|[]]; try discriminate;
        cbn [bstep_run] in H; unfold call_with in H; destruct (contents_of s (Own i)); discriminate. }
  destruct (contents_of s (bc_ref c)) as [l|] eqn:F; [|contradiction]. rewrite (step_contents n s x s' E H _ _ F). discriminate.
Qed.
Theorem session_exist n xs : forall s s', bsession_run n s xs = Some s' -> lists_exist s -> lists_exist s'.
Proof.
  induction xs as [|x t IH]; intros s s' H E; cbn in H.
  - injection H as <-. exact E.
  - destruct (bstep_run n s x) as [s1|] eqn:F; [|discriminate]. exact (IH _ _ H (step_exist _ _ _ _ E F)).
Qed.
