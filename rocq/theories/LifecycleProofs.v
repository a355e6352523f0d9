From Verif Require Import Prelude LifecycleModel.
From Coq Require Import String.
Local Open Scope nat_scope.
Local Open Scope list_scope.

(* SPEC: a path holds a complete cache with configuration [c] *)
Definition holds_cache (s : fs) (p : path) (c : config) : Prop :=
  exists files, s p = Some (NDir (MkDir (Some (CfgWritten c)) files [])).

Lemma fs_set_eq s p n : fs_set s p n p = n.
Proof. unfold fs_set. rewrite Nat.eqb_refl. reflexivity. Qed.
Lemma fs_set_neq s p n q : q <> p -> fs_set s p n q = s q.
Proof. unfold fs_set. intros H. apply Nat.eqb_neq in H. rewrite H. reflexivity. Qed.

Lemma last_app {B} (l1 l2 : list B) d : last (l1 ++ l2) d = last l2 (last l1 d).
Proof.
  revert d. induction l1 as [|a t IH]; intros d; [reflexivity|].
  destruct t as [|b t'].
  - simpl app. destruct l2 as [|x l2]; [reflexivity|].
    change (last (a :: x :: l2) d) with (last (x :: l2) d).
    simpl last at 3. clear IH. revert x. induction l2 as [|y l2 IH2]; intros x; [reflexivity|]. apply IH2.
  - change (last ((a :: b :: t') ++ l2) d) with (last ((b :: t') ++ l2) d).
    change (last (a :: b :: t') d) with (last (b :: t') d). apply IH.
Qed.

(* frame: a life cycle operation on [p] only ever changes [p] *)
Lemma unlink_frame p q c other files : q <> p -> forall s,
  Forall (fun s' => s' q = s q) (unlink_all s p c files other).
Proof.
  intros Hq. induction files as [|x r IH]; intros s; [constructor|].
  cbn [unlink_all]. constructor.
  - apply fs_set_neq; exact Hq.
  - specialize (IH (fs_set s p (Some (NDir (MkDir c r other))))).
    rewrite fs_set_neq in IH by exact Hq. exact IH.
Qed.

Lemma last_frame (P : fs -> Prop) s t : P s -> Forall P t -> P (last_state s t).
Proof.
  unfold last_state. intros Hs Ht. induction Ht as [|a t Ha Ht IH]; [exact Hs|].
  destruct t as [|b t']; [exact Ha|]. exact IH.
Qed.

Lemma delete_frame s p q : q <> p -> Forall (fun s' => s' q = s q) (fst (delete_trace s p)).
Proof.
  intros Hq. unfold delete_trace. destruct (s p) as [n|] eqn:E; [|constructor].
  destruct (load s p) as [c|e]; [|constructor]. destruct n as [|d]; [constructor|].
  assert (Hu := unlink_frame p q (d_cfg d) (d_other d) (d_parquet d) Hq s).
  assert (Hl : last_state s (unlink_all s p (d_cfg d) (d_parquet d) (d_other d)) q = s q).
  { apply (last_frame (fun s' => s' q = s q)); auto. }
  destruct (d_other d); cbn [fst]; apply Forall_app; split; auto; repeat constructor;
    rewrite ?fs_set_neq; auto.
Qed.

Lemma mkdir_frame s p c q : q <> p -> Forall (fun s' => s' q = s q) (fst (mkdir_trace s p c)).
Proof.
  intros Hq. unfold mkdir_trace. destruct (s p); [constructor|].
  cbn [fst]. repeat constructor; rewrite ?fs_set_neq; auto.
Qed.

Lemma create_frame s p c f q : q <> p -> Forall (fun s' => s' q = s q) (fst (create_trace s p c f)).
Proof.
  intros Hq. unfold create_trace. destruct (s p) as [n|] eqn:E; [|apply mkdir_frame; exact Hq].
  destruct f; [|apply mkdir_frame; exact Hq].
  pose proof (delete_frame s p q Hq) as Hd. destruct (delete_trace s p) as [t1 [e|]]; [exact Hd|].
  cbn [fst] in Hd.
  pose proof (mkdir_frame (last_state s t1) p c q Hq) as Hm.
  assert (Hl : last_state s t1 q = s q) by (apply (last_frame (fun s' => s' q = s q)); auto).
  destruct (mkdir_trace (last_state s t1) p c) as [t2 r]. cbn [fst] in *.
  apply Forall_app. split; [exact Hd|]. rewrite Hl in Hm. exact Hm.
Qed.

(* delete *)
Lemma unlink_shape p c other files : forall s s',
  In s' (unlink_all s p c files other) -> exists r, s' p = Some (NDir (MkDir c r other)).
Proof.
  induction files as [|x r IH]; intros s s' H; [destruct H|].
  cbn [unlink_all] in H. destruct H as [<-|H].
  - exists r. apply fs_set_eq.
  - eapply IH. exact H.
Qed.

Lemma delete_healthy s p c : holds_cache s p c -> cfg_truthy c = true ->
  outcome (delete_trace s p) = None /\ final s (delete_trace s p) p = None.
Proof.
  intros [files E] Hc. unfold delete_trace, final, outcome, load. rewrite E. cbn [d_cfg d_parquet d_other].
  rewrite Hc. cbn [fst snd]. split; [reflexivity|].
  unfold last_state. rewrite last_app. cbn [last]. apply fs_set_eq.
Qed.

Lemma delete_absent s p : s p = None -> delete_trace s p = ([], None).
Proof. intros E. unfold delete_trace. rewrite E. reflexivity. Qed.

(* create *)
Lemma mkdir_absent s p c : s p = None ->
  outcome (mkdir_trace s p c) = None /\
  final s (mkdir_trace s p c) p = Some (NDir (MkDir (Some (CfgWritten c)) [] [])).
Proof.
  intros E. unfold mkdir_trace, outcome, final. rewrite E. cbn [fst snd].
  split; [reflexivity|]. unfold last_state; cbn [last]. apply fs_set_eq.
Qed.

Lemma create_absent s p c f : s p = None ->
  outcome (create_trace s p c f) = None /\
  final s (create_trace s p c f) p = Some (NDir (MkDir (Some (CfgWritten c)) [] [])).
Proof.
  intros E. pose proof (mkdir_absent s p c E) as H. unfold create_trace. rewrite E. exact H.
Qed.

Lemma create_exists s p c n : s p = Some n ->
  create_trace s p c false = ([], Some EFileExists).
Proof. intros E. unfold create_trace, mkdir_trace. rewrite E. reflexivity. Qed.

Lemma create_over s p c c' : holds_cache s p c -> cfg_truthy c = true ->
  outcome (create_trace s p c' true) = None /\
  final s (create_trace s p c' true) p = Some (NDir (MkDir (Some (CfgWritten c')) [] [])).
Proof.
  intros Hh Hc. pose proof (delete_healthy s p c Hh Hc) as [D1 D2].
  destruct Hh as [files E]. unfold create_trace. rewrite E.
  unfold outcome, final in *. destruct (delete_trace s p) as [t1 r]. cbn [fst snd] in D1, D2. subst r.
  pose proof (mkdir_absent (last_state s t1) p c' D2) as [M1 M2].
  destruct (mkdir_trace (last_state s t1) p c') as [t2 r]. unfold outcome, final in *. cbn [fst snd] in *.
  split; [exact M1|]. unfold last_state in *. rewrite last_app. exact M2.
Qed.

Lemma load_healthy s p c : holds_cache s p c -> cfg_truthy c = true -> load s p = inl c.
Proof. intros [files E] Hc. unfold load. rewrite E. cbn. rewrite Hc. reflexivity. Qed.

(* exact condition under which create(delete_if_exists=True) succeeds *)
Lemma create_true_iff s p c' :
  outcome (create_trace s p c' true) = None <->
  s p = None \/ exists c, holds_cache s p c /\ cfg_truthy c = true.
Proof.
  split.
  - intros H. destruct (s p) as [n|] eqn:E; [|left; reflexivity]. right.
    unfold create_trace in H. rewrite E in H. unfold delete_trace in H. rewrite E in H.
    unfold load in H. rewrite E in H.
    destruct n as [|[cf fl ot]]; [discriminate|]. cbn [d_cfg d_parquet d_other] in H.
    destruct cf as [[|c]|]; try discriminate.
    destruct (cfg_truthy c) eqn:Hc; [|discriminate].
    destruct ot as [|x ot]; [|discriminate].
    exists c. split; [|exact Hc]. exists fl. exact E.
  - intros [E|(c & Hh & Hc)].
    + apply create_absent; exact E.
    + eapply create_over; eauto.
Qed.

(* histories *)
Definition valid_op (o : fsop) : bool :=
  match o with OpCreate _ c _ => cfg_truthy c | _ => true end.

Definition healthy (s : fs) : Prop :=
  forall p, s p = None \/ exists c, holds_cache s p c /\ cfg_truthy c = true.

Lemma final_frame s p q t : q <> p -> Forall (fun s' : fs => s' q = s q) (fst t) -> final s t q = s q.
Proof. intros Hq Hf. unfold final. apply (last_frame (fun s' => s' q = s q)); auto. Qed.

Lemma healthy_step s o : healthy s -> valid_op o = true -> healthy (fs_step s o).
Proof.
  intros Hs Ho q. destruct o as [p c f|p|p i]; cbn [fs_step valid_op] in *.
  - destruct (Nat.eq_dec q p) as [->|Hq].
    + destruct (Hs p) as [E|(c0 & Hh & Hc)].
      * right. exists c. split; [|exact Ho]. exists []. apply create_absent; exact E.
      * destruct f.
        -- right. exists c. split; [|exact Ho]. exists []. eapply create_over; eauto.
        -- right. exists c0. split; [|exact Hc]. destruct Hh as [files E]. exists files.
           unfold final. rewrite (create_exists s p c _ E). exact E.
    + pose proof (final_frame s p q _ Hq (create_frame s p c f q Hq)) as E.
      unfold holds_cache. rewrite E. apply Hs.
  - destruct (Nat.eq_dec q p) as [->|Hq].
    + destruct (Hs p) as [E|(c0 & Hh & Hc)].
      * left. rewrite delete_absent by exact E. exact E.
      * left. eapply delete_healthy; eauto.
    + pose proof (final_frame s p q _ Hq (delete_frame s p q Hq)) as E.
      unfold holds_cache. rewrite E. apply Hs.
  - unfold add_file. destruct (s p) as [[|d]|] eqn:E; try apply Hs.
    destruct (Nat.eq_dec q p) as [->|Hq].
    + right. destruct (Hs p) as [E'|(c0 & [files Hh] & Hc)]; [congruence|].
      rewrite Hh in E. injection E as <-. exists c0. split; [|exact Hc].
      exists (files ++ [i]). rewrite fs_set_eq. reflexivity.
    + unfold holds_cache. rewrite fs_set_neq by exact Hq. apply Hs.
Qed.

Lemma healthy_run ops : forallb valid_op ops = true -> healthy (fs_run ops).
Proof.
  induction ops as [|o ops IH] using rev_ind; intros H.
  - intros p. left. reflexivity.
  - rewrite forallb_app in H. apply andb_true_iff in H. destruct H as [H1 H2].
    unfold fs_run. rewrite fold_left_app. cbn [fold_left].
    apply healthy_step; [apply IH; exact H1|]. cbn in H2. rewrite andb_true_r in H2. exact H2.
Qed.

(* crash points inside delete: exactly one intermediate state is not recoverable *)
Lemma delete_crash s p c c' : holds_cache s p c -> cfg_truthy c = true ->
  forall s', In s' (crash_states s (delete_trace s p)) ->
    outcome (create_trace s' p c' true) = None \/
    s' p = Some (NDir (MkDir None [] [])).
Proof.
  intros [files E] Hc s' Hin. unfold crash_states, delete_trace, load in Hin.
  rewrite E in Hin. cbn [d_cfg d_parquet d_other] in Hin. rewrite Hc in Hin. cbn [fst] in Hin.
  destruct Hin as [<-|Hin].
  - left. apply create_true_iff. right. exists c. split; [exists files; exact E|exact Hc].
  - apply in_app_iff in Hin. destruct Hin as [Hin|[<-|[<-|[]]]].
    + left. apply create_true_iff. right. exists c.
      destruct (unlink_shape _ _ _ _ _ _ Hin) as [r Hr]. split; [exists r; exact Hr|exact Hc].
    + right. apply fs_set_eq.
    + left. apply create_true_iff. left. apply fs_set_eq.
Qed.

(* crash points inside create on a fresh path *)
Lemma create_crash s p c c' : s p = None -> cfg_truthy c = true ->
  forall s', In s' (crash_states s (create_trace s p c false)) ->
    outcome (create_trace s' p c' true) = None \/
    s' p = Some (NDir (MkDir None [] [])) \/ s' p = Some (NDir (MkDir (Some CfgTruncated) [] [])).
Proof.
  intros E Hc s' Hin. unfold crash_states, create_trace, mkdir_trace in Hin. rewrite E in Hin.
  cbn [fst] in Hin. destruct Hin as [<-|[<-|[<-|[<-|[]]]]].
  - left. apply create_true_iff. left. exact E.
  - right. left. apply fs_set_eq.
  - right. right. apply fs_set_eq.
  - left. apply create_true_iff. right. exists c. split; [|exact Hc]. exists []. apply fs_set_eq.
Qed.
