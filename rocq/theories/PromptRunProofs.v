(* Proofs for PromptProps.v: the requests of a run, and the inputs of a metric. *)
From Verif Require Import Prelude Counting TextModel TextSpec TextReadProofs TextScoreProofs PromptSpec.
From Coq Require Import String Lia QArith.
From Coq Require List.
Local Open Scope string_scope.
Local Open Scope nat_scope.
Local Open Scope list_scope.

Section Runs.
  Context {St : Type} (c : client St) (py : python) (sys : text).
  Hypothesis Hpy : python_ok py.
  Hypothesis Hld : loads_unicode py.
  Definition sent (tr : list exchange) : Prop := Forall (fun e => proper_message sys (fst e)) tr.
  (* every request of [m] is proper, and [R] holds of what it returns *)
  Definition sends {A} (R : A -> Prop) (m : prog St A) : Prop :=
    forall s o s' tr, m c s = (o, s', tr) -> sent tr /\ forall a, o = Ok a -> R a.
  Lemma sends_ret {A} (R : A -> Prop) o : (forall a, o = Ok a -> R a) -> sends R (ret o).
  Proof. intros H s o' s' tr E. injection E as <- <- <-. split; [constructor|exact H]. Qed.
  Lemma sends_bind {A B} (R : A -> Prop) (S : B -> Prop) m k : sends R m -> (forall a, R a -> sends S (k a)) -> sends S (bind m k).
  Proof.
    intros Hm Hk s o s' tr E. unfold bind in E. destruct (m c s) as [[o1 s1] t1] eqn:E1. destruct (Hm s o1 s1 t1 E1) as [T1 R1].
    destruct o1 as [a|i|e]; [|injection E as <- <- <-; split; [exact T1|discriminate]|injection E as <- <- <-; split; [exact T1|discriminate]].
    destruct (k a c s1) as [[o2 s2] t2] eqn:E2. injection E as <- <- <-. destruct (Hk a (R1 a eq_refl) s1 o2 s2 t2 E2) as [T2 R2].
    split; [apply Forall_app; auto|exact R2].
  Qed.
  Lemma sends_call r : proper r -> sends (fun _ => True) (call (sys, r)).
  Proof.
    intros P s o s' tr E. unfold call in E. destruct (c s (sys, r)) as [o1 s1]. injection E as <- <- <-. split; [|trivial].
    constructor; [split; [reflexivity|exact P]|constructor].
  Qed.
  Lemma sends_true {A} (R : A -> Prop) m : sends R m -> sends (fun _ => True) m.
  Proof. intros H s o s' tr E. destruct (H s o s' tr E). split; auto. Qed.
  Lemma dget_In k : forall d v, dget k d = Some v -> exists k', In (k', v) d.
  Proof.
    induction d as [|[k' v'] d IH]; intros v E; [discriminate|]. cbn in E. destruct (text_eqb k k'); [injection E as ->; exists k'; left; reflexivity|].
    destruct (IH v E) as (k2 & H). exists k2. right. exact H.
  Qed.
  Lemma load_strings t d k l : trim_and_load_json py t = Ok d -> statement_list d k l -> strings l.
  Proof.
    intros E [G F]. unfold trim_and_load_json in E. destruct (search_braces t) as [ext|]; [|discriminate].
    destruct (py_loads py ext) as [d'| |] eqn:L; try discriminate. injection E as ->. destruct (dget_In k d _ G) as (k' & I).
    unfold strings. rewrite Forall_forall in *. intros v Hv. destruct (F v Hv) as (u & ->). exists u. split; [reflexivity|].
    apply (Hld ext d L k' (JArr l) u I). apply (hs_arr l (JStr u) u Hv). constructor.
  Qed.
  (* the lists that validate_statements has accepted *)
  Definition good (keys : list text) (d : dict) : Prop := forall k l, In k keys -> field k d = Ok l -> strings l.
  Lemma sends_statements r keys : proper r -> NoDup keys -> sends (good keys) (generate py (sys, r) keys validate_statements None None).
  Proof.
    intros P N. unfold generate. apply (sends_bind (fun _ => True)); [apply sends_call, P|]. intros t _.
    apply (sends_bind (fun d => trim_and_load_json py t = Ok d)); [apply sends_ret; auto|]. intros d Ed.
    apply (sends_bind (fun _ => check_keys validate_statements d (py_set_order py keys) None None = Ok tt)); [apply sends_ret; intros [] H; exact H|].
    intros _ Ec. apply sends_ret. intros a Ea. injection Ea as <-. rewrite check_keys_ok in Ec.
    intros k l Hk Ef. assert (V := Ec k (Permutation_in _ (set_order py Hpy keys N) Hk)). apply validate_statements_ok in V.
    destruct V as (l' & S & _). destruct S as [G F]. unfold field in Ef. rewrite G in Ef. injection Ef as <-. apply (load_strings t d k l' Ed). split; assumption.
  Qed.
  Lemma one_key k : NoDup [k : text].
  Proof. constructor; [intros []|constructor]. Qed.
  Lemma sends_field r key : proper r -> sends strings (bind (generate py (sys, r) [key] validate_statements None None) (fun d => ret (field key d))).
  Proof.
    intros P. apply (sends_bind (good [key])); [apply sends_statements; [exact P|apply one_key]|]. intros d G. apply sends_ret.
    intros l E. apply (G key l (or_introl eq_refl) E).
  Qed.
  Lemma sends_verdicts r allowed n : proper r -> sends (fun _ => True) (generate_verdicts py (sys, r) allowed n).
  Proof.
    intros P. unfold generate_verdicts, generate. apply (sends_bind (fun _ => True)); [|intros; apply sends_ret; auto].
    apply (sends_bind (fun _ => True)); [apply sends_call, P|]. intros t _. apply (sends_bind (fun _ => True)); [apply sends_ret; auto|]. intros d _.
    apply (sends_bind (fun _ => True)); [apply sends_ret; auto|]. intros _ _. apply sends_ret; auto.
  Qed.
  Lemma sends_claims t : unicode t -> sends strings (generate_claims py sys t).
  Proof. intros U. apply sends_field. exact U. Qed.
  Lemma sends_opinions t : unicode t -> sends strings (generate_opinions py sys t).
  Proof. intros U. apply sends_field. exact U. Qed.
  Lemma sends_stmts t : unicode t -> sends strings (generate_statements py sys t).
  Proof. intros U. apply sends_field. exact U. Qed.
  Lemma three_keys : NoDup [lit "TP"; lit "FP"; lit "FN"].
  Proof. repeat constructor; cbn; intuition discriminate. Qed.
  Lemma sends_correctness q p g : unicode q -> strings p -> strings g -> sends (fun _ => True) (generate_answer_correctness_verdicts py sys q p g).
  Proof.
    intros Q P G. unfold generate_answer_correctness_verdicts. eapply sends_bind; [apply sends_statements; [cbn; auto|apply three_keys]|].
    intros d _. do 3 (apply (sends_bind (fun _ => True)); [apply sends_ret; auto|]; intros ? _). apply sends_ret; auto.
  Qed.

  Notation quiet := (sends (fun _ => True)).
  Lemma quiet_ret {A} (o : outcome A) : quiet (ret o).
  Proof. apply sends_ret. auto. Qed.
  Lemma quiet_correctness q resp gts : unicode q -> unicode resp -> Forall unicode gts -> quiet (calculate_answer_correctness py sys q resp gts).
  Proof.
    intros Q R G. unfold calculate_answer_correctness. eapply sends_bind; [apply sends_stmts, R|]. intros ps P.
    apply (sends_bind (fun _ => True)); [|intros; apply quiet_ret]. generalize [0%Q]. induction G as [|g gts Hg G IH]; intros f1s; [apply quiet_ret|].
    cbn [correctness_loop]. eapply sends_bind; [apply sends_stmts, Hg|]. intros gs S. eapply sends_bind; [apply sends_correctness; assumption|].
    intros [[tp fp] fn] _. apply IH.
  Qed.
  Lemma quiet_relevance q resp : unicode q -> unicode resp -> quiet (calculate_answer_relevance py sys q resp).
  Proof.
    intros Q R. unfold calculate_answer_relevance. eapply sends_bind; [apply sends_stmts, R|]. intros ss S.
    eapply sends_bind; [apply sends_verdicts; cbn; auto|]. intros vs _. destruct (len vs =? 0)%Z; apply quiet_ret.
  Qed.
  Lemma quiet_bias resp : unicode resp -> quiet (calculate_bias py sys resp).
  Proof.
    intros R. unfold calculate_bias. eapply sends_bind; [apply sends_opinions, R|]. intros ss S. destruct (len ss =? 0)%Z; [apply quiet_ret|].
    eapply sends_bind; [apply sends_verdicts; cbn; auto|]. intros; apply quiet_ret.
  Qed.
  Lemma quiet_toxicity resp : unicode resp -> quiet (calculate_toxicity py sys resp).
  Proof.
    intros R. unfold calculate_toxicity. eapply sends_bind; [apply sends_opinions, R|]. intros ss S. destruct (len ss =? 0)%Z; [apply quiet_ret|].
    eapply sends_bind; [apply sends_verdicts; cbn; auto|]. intros; apply quiet_ret.
  Qed.
  Lemma quiet_precision q cs gts : unicode q -> Forall unicode cs -> Forall unicode gts -> quiet (calculate_context_precision py sys q cs gts).
  Proof.
    intros Q C G. unfold calculate_context_precision. destruct (_ && _); [apply quiet_ret|]. destruct (_ || _); [apply quiet_ret|].
    apply (sends_bind (fun _ => True)); [|intros; apply quiet_ret]. generalize (List.map (fun _ : text => false) cs). induction G as [|g gts Hg G IH]; intros agg; [apply quiet_ret|].
    cbn [precision_loop]. eapply sends_bind; [apply sends_verdicts; cbn; auto|]. intros vs _. apply (sends_bind (fun _ => True)); [apply quiet_ret|]. intros ys _.
    apply (sends_bind (fun _ => True)); [apply quiet_ret|]. intros agg' _. apply IH.
  Qed.
  Lemma quiet_recall cs gts : Forall unicode cs -> Forall unicode gts -> quiet (calculate_context_recall py sys cs gts).
  Proof.
    intros C G. unfold calculate_context_recall. destruct (_ && _); [apply quiet_ret|]. destruct (_ || _); [apply quiet_ret|].
    apply (sends_bind (fun _ => True)); [|intros; apply quiet_ret]. generalize (@nil Q). induction G as [|g gts Hg G IH]; intros l; [apply quiet_ret|].
    cbn [recall_loop]. eapply sends_bind; [apply sends_stmts, Hg|]. intros ss S. eapply sends_bind; [apply sends_verdicts; cbn; auto|]. intros vs _.
    apply (sends_bind (fun _ => True)); [apply quiet_ret|]. intros q _. apply IH.
  Qed.
  Lemma quiet_context_relevance q cs : unicode q -> Forall unicode cs -> quiet (calculate_context_relevance py sys q cs).
  Proof.
    intros Q C. unfold calculate_context_relevance. destruct (len cs =? 0)%Z; [apply quiet_ret|].
    eapply sends_bind; [apply sends_verdicts; cbn; auto|]. intros; apply quiet_ret.
  Qed.
  Lemma quiet_faithfulness resp cs : unicode resp -> Forall unicode cs -> quiet (calculate_faithfulness py sys resp cs).
  Proof.
    intros Q C. unfold calculate_faithfulness. destruct (len cs =? 0)%Z; [apply quiet_ret|]. eapply sends_bind; [apply sends_claims, Q|].
    intros ss S. destruct (len ss =? 0)%Z; [apply quiet_ret|].
    eapply sends_bind; [apply sends_verdicts; cbn; auto|]. intros; apply quiet_ret.
  Qed.
  Lemma quiet_hallucination resp cs : unicode resp -> Forall unicode cs -> quiet (calculate_hallucination py sys resp cs).
  Proof.
    intros Q C. unfold calculate_hallucination. destruct (len cs =? 0)%Z; [apply quiet_ret|].
    eapply sends_bind; [apply sends_verdicts; cbn; auto|]. intros; apply quiet_ret.
  Qed.
  Lemma quiet_coherence t s : unicode t -> unicode s -> quiet (calculate_summary_coherence py sys t s).
  Proof.
    intros Q C. unfold calculate_summary_coherence, generate_summary_coherence. apply (sends_bind (fun _ => True)); [|intros; apply quiet_ret].
    apply (sends_bind (fun _ => True)); [apply sends_call; cbn; auto|]. intros r _. apply (sends_bind (fun _ => True)); [apply quiet_ret|]. intros f _. apply quiet_ret.
  Qed.
  Lemma quiet_attempts fn model retries n : quiet fn -> forall error s o s' tr, attempts fn c model retries n error s = (o, s', tr) -> sent tr.
  Proof.
    intros Hf. induction n as [|n IH]; intros error s o s' tr E; cbn [attempts] in E; [injection E as <- <- <-; constructor|].
    destruct (fn c s) as [[o1 s1] t1] eqn:E1. destruct (Hf s o1 s1 t1 E1) as [T1 _].
    destruct o1 as [a|i|e]; [injection E as <- <- <-; exact T1| |injection E as <- <- <-; exact T1].
    destruct (attempts fn c model retries n (Some i) s1) as [[o2 s2] t2] eqn:E2. injection E as <- <- <-.
    apply Forall_app. split; [exact T1|apply (IH _ _ _ _ _ E2)].
  Qed.
End Runs.

Section Methods.
  Context {St : Type} (py : python) (ev : evaluator St) (r : query_response).
  Hypothesis Hpy : python_ok py.
  Hypothesis Hld : loads_unicode py.
  Hypothesis Hr : unicode_response r.
  Definition quiet_method {A} (m : method St A) : Prop := forall s o s' tr, m s = (o, s', tr) -> sent (ev_system ev) tr.
  Lemma guided_quiet fn : (forall c model, sends c (ev_system ev) (fun _ => True) (fn model)) -> quiet_method (guided ev fn).
  Proof.
    intros H s o s' tr E. unfold guided in E. destruct (ev_client ev) as [[c [model|]]|]; [|injection E as <- <- <-; constructor|injection E as <- <- <-; constructor].
    apply (quiet_attempts c (ev_system ev) (fn model) model (ev_retries ev) _ (H c model) _ _ _ _ _ E).
  Qed.
  Lemma scored_quiet c ty (p : prog St Q) model : sends c (ev_system ev) (fun _ => True) p -> sends c (ev_system ev) (fun _ => True) (scored ev ty p model).
  Proof. intros H. unfold scored. eapply sends_bind; [exact H|]. intros; apply sends_ret; auto. Qed.
  Lemma context_quiet c (k : context -> prog St metric) :
    (forall x, qr_context r = Some x -> Forall unicode (groundtruth x) -> Forall unicode (prediction x) -> sends c (ev_system ev) (fun _ => True) (k x)) ->
    sends c (ev_system ev) (fun _ => True) (needs_context r k).
  Proof.
    intros H. unfold needs_context. destruct (qr_context r) as [x|] eqn:E; [|apply sends_ret; auto]. destruct Hr as (_ & _ & X).
    destruct (X x E) as [G P]. apply (H x); auto.
  Qed.
  Theorem methods_quiet ty m : In (ty, m) (guided_methods py ev r) -> quiet_method m.
  Proof.
    destruct Hr as (Q & R & _).
    intros I. cbn in I. repeat (destruct I as [I|I]; [injection I as <- <-|]); [| | | | | | | | | |destruct I]; apply guided_quiet; intros c model.
    - apply context_quiet. intros x _ G _. apply scored_quiet, quiet_correctness; assumption.
    - apply scored_quiet, quiet_relevance; assumption.
    - apply scored_quiet, quiet_bias; assumption.
    - apply context_quiet. intros x _ G P. apply scored_quiet, quiet_precision; assumption.
    - apply context_quiet. intros x _ G P. apply scored_quiet, quiet_recall; assumption.
    - apply context_quiet. intros x _ G P. apply scored_quiet, quiet_context_relevance; assumption.
    - apply context_quiet. intros x _ G P. apply scored_quiet, quiet_faithfulness; assumption.
    - apply context_quiet. intros x _ G P. apply scored_quiet, quiet_hallucination; assumption.
    - apply scored_quiet, quiet_coherence; assumption.
    - apply scored_quiet, quiet_toxicity; assumption.
  Qed.
  Lemma mbind_quiet {A B} (m : method St A) (k : A -> method St B) : quiet_method m -> (forall a, quiet_method (k a)) -> quiet_method (mbind m k).
  Proof.
    intros Hm Hk s o s' tr E. unfold mbind in E. destruct (m s) as [[o1 s1] t1] eqn:E1. assert (T1 := Hm s o1 s1 t1 E1).
    destruct o1 as [a|i|e]; [|injection E as <- <- <-; exact T1|injection E as <- <- <-; exact T1].
    destruct (k a s1) as [[o2 s2] t2] eqn:E2. injection E as <- <- <-. apply Forall_app. split; [exact T1|apply (Hk a s1 o2 s2 t2 E2)].
  Qed.
  Lemma mret_quiet {A} (o : outcome A) : quiet_method (mret o).
  Proof. intros s o' s' tr E. injection E as <- <- <-. constructor. Qed.
  Theorem compute_all_quiet n w types stem : quiet_method (compute_all py n ev r w types stem).
  Proof.
    unfold compute_all. apply mbind_quiet.
    - assert (H := methods_quiet). induction (guided_methods py ev r) as [|[ty m] l IH]; [apply mret_quiet|]. cbn [run_methods].
      apply mbind_quiet; [apply (H ty m); left; reflexivity|]. intros v. apply mbind_quiet; [|intros; apply mret_quiet]. apply IH. intros t' m' I. apply (H t' m'). right. exact I.
    - intros res. apply mbind_quiet; [apply mret_quiet|]. intros rouges. apply mbind_quiet; [apply mret_quiet|]. intros bleu. apply mret_quiet.
  Qed.
End Methods.

(* ------------------------------------------------------------------ *)
(** * Inputs of a metric *)
Lemma both_contexts {X} (f : context -> X) r r' : option_map f (qr_context r) = option_map f (qr_context r') ->
  (qr_context r = None /\ qr_context r' = None) \/ exists x x', qr_context r = Some x /\ qr_context r' = Some x' /\ f x = f x'.
Proof. destruct (qr_context r) as [x|], (qr_context r') as [x'|]; cbn; intros E; try discriminate; [right; exists x, x'; injection E as E; auto|auto]. Qed.
Lemma guided_ext {St} (ev : evaluator St) fn fn' : (forall model c s, fn model c s = fn' model c s) -> forall s, guided ev fn s = guided ev fn' s.
Proof.
  intros H s. unfold guided. destruct (ev_client ev) as [[c [model|]]|]; [|reflexivity|reflexivity].
  generalize (@None invalid). revert s. induction (Z.to_nat (1 + ev_retries ev)) as [|n IH]; intros s error; [reflexivity|]. cbn [attempts]. rewrite H.
  destruct (fn' model c s) as [[[m|i|e] s1] t1]; [reflexivity| |reflexivity]. rewrite IH. reflexivity.
Qed.
Theorem only_inputs {St} py (ev : evaluator St) ty i r r' m m' s : documented ty = Some i -> alike i r r' ->
  In (ty, m) (guided_methods py ev r) -> In (ty, m') (guided_methods py ev r') -> m s = m' s.
Proof.
  intros D (Q & R & P & G) I I'. cbn in I, I'.
  repeat (destruct I as [I|I]; [injection I as <- <-|]); [| | | | | | | | | |destruct I]; injection D as <-; cbn in Q, R, P, G;
  repeat (destruct I' as [I'|I']; [first [discriminate I' | injection I' as <-]|]); try destruct I'; apply guided_ext; intros model c s0; unfold needs_context.
  - rewrite Q, R by reflexivity. destruct (both_contexts _ _ _ (G eq_refl)) as [[-> ->]|(x & x' & -> & -> & ->)]; reflexivity.
  - rewrite Q, R by reflexivity. reflexivity.
  - rewrite R by reflexivity. reflexivity.
  - rewrite Q by reflexivity. destruct (both_contexts _ _ _ (G eq_refl)) as [[-> ->]|(x & x' & E & E' & E2)]; [reflexivity|].
    specialize (P eq_refl). rewrite E, E' in *. cbn in P. injection P as P. rewrite E2, P. reflexivity.
  - destruct (both_contexts _ _ _ (G eq_refl)) as [[-> ->]|(x & x' & E & E' & E2)]; [reflexivity|].
    specialize (P eq_refl). rewrite E, E' in *. cbn in P. injection P as P. rewrite E2, P. reflexivity.
  - rewrite Q by reflexivity. destruct (both_contexts _ _ _ (P eq_refl)) as [[-> ->]|(x & x' & -> & -> & ->)]; reflexivity.
  - rewrite R by reflexivity. destruct (both_contexts _ _ _ (P eq_refl)) as [[-> ->]|(x & x' & -> & -> & ->)]; reflexivity.
  - rewrite R by reflexivity. destruct (both_contexts _ _ _ (P eq_refl)) as [[-> ->]|(x & x' & -> & -> & ->)]; reflexivity.
  - rewrite Q, R by reflexivity. reflexivity.
  - rewrite R by reflexivity. reflexivity.
Qed.
