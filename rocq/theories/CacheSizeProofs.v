(* File sizes, file names *)
From Verif Require Import Prelude CacheModel CacheSpec CacheProofs.

Section Sizes.
  Context {A : Type}.
  Implicit Types (s : file_state A) (ops : list (wop A)) (d : dir A).

  Definition size_inv (m bs rpf : nat) s : Prop :=
    (forall e, In e (f_dir s) -> List.length (snd e) <= (rpf - 1) + (bs - 1) + m)
    /\ f_count s < rpf
    /\ list_sum_nat (map (@List.length A) (f_buffer s)) <= bs - 1.

  Lemma size_append gs (s : file_state A) rows B :
    ghost gs s ->
    (forall e, In e (f_dir s) -> List.length (snd e) <= B) ->
    f_count s + List.length rows <= B ->
    (forall e, In e (f_dir (file_append s rows)) -> List.length (snd e) <= B).
  Proof.
    intros HG Hs Hb e He.
    destruct (ghost_append gs s rows [rows] HG) as (gs' & _ & _ & _ & _ & dd & i & c & Hdir & Hlen & Hcase & _).
    { simpl. rewrite app_nil_r. reflexivity. }
    rewrite Hdir in He. apply in_app_or in He. destruct He as [He|[<-|[]]].
    - apply Hs. destruct Hcase as [[-> _]|[-> _]]; [apply in_or_app; left|]; exact He.
    - simpl. rewrite app_length. lia.
  Qed.

  Lemma size_flush gs m bs rpf s :
    1 <= rpf -> ghost gs s -> size_inv m bs rpf s -> size_inv m bs rpf (file_flush s).
  Proof.
    intros Hr HG (H1 & H2 & H3). unfold file_flush, size_inv. cbn [f_dir f_count f_buffer].
    split; [|simpl; lia].
    destruct (f_buffer s) as [|b t] eqn:E; [exact H1|].
    apply (size_append gs); auto. rewrite length_concat. lia.
  Qed.

  Lemma size_step gs m bs rpf s o :
    1 <= rpf -> ghost gs s -> small m o = true -> size_inv m bs rpf s ->
    size_inv m bs rpf (file_step bs rpf s o).
  Proof.
    intros Hr HG Hsm HI.
    assert (Hwb : forall b, List.length b <= m -> size_inv m bs rpf (file_write_batch bs rpf s b)).
    { intros b Hb. destruct HI as (H1 & H2 & H3). unfold file_write_batch.
      destruct ((_ <? bs) && (f_count s <? rpf)) eqn:E.
      - unfold size_inv. cbn [f_dir f_count f_buffer]. split; [exact H1|]. split; [exact H2|].
        rewrite map_app, list_sum_nat_app. simpl. lia.
      - set (batch := match f_buffer s with [] => b | _ :: _ => concat (f_buffer s ++ [b]) end).
        set (s1 := MkFile (f_dir s) (f_writer s) [] (f_count s)).
        assert (G1 : ghost gs s1) by (destruct s; eapply ghost_count_indep; exact HG).
        destruct (ghost_append gs s1 batch [batch] G1) as (gs' & HG' & _ & Hbuf & Hcnt & _).
        { simpl. rewrite app_nil_r; reflexivity. }
        assert (Hsz : List.length batch = List.length b + list_sum_nat (map (@List.length A) (f_buffer s))).
        { unfold batch. destruct (f_buffer s) as [|x t]; [simpl; lia|].
          rewrite concat_snoc, app_length, length_concat. lia. }
        assert (HF : forall e, In e (f_dir (file_append s1 batch)) ->
                     List.length (snd e) <= (rpf - 1) + (bs - 1) + m).
        { apply (size_append gs); [exact G1|exact H1|].
          rewrite Hsz. change (f_count s1) with (f_count s). lia. }
        cbv zeta. cbn [f_dir f_writer f_buffer f_count]. rewrite <- Hsz, Hcnt.
        destruct (rpf <=? f_count s1 + List.length batch) eqn:Ef.
        + unfold file_flush. cbn [f_buffer]. rewrite Hbuf. cbn [s1 f_buffer].
          unfold size_inv. cbn [f_dir f_count f_buffer]. split; [exact HF|]. simpl; lia.
        + unfold size_inv. cbn [f_dir f_count f_buffer]. rewrite Hbuf. cbn [s1 f_buffer].
          split; [exact HF|]. split; [lia|simpl; lia]. }
    unfold small in Hsm. destruct o as [r|b|t|]; cbn [file_step is_table op_rows] in *.
    - unfold file_write_rows. destruct r as [|x r]; [exact HI|]. apply Hwb. lia.
    - apply Hwb. lia.
    - discriminate.
    - eapply size_flush; eauto.
  Qed.

  Lemma size_run m bs rpf ops :
    1 <= rpf -> forallb (small m) ops = true -> size_inv m bs rpf (file_run bs rpf ops).
  Proof.
    intros Hr. induction ops as [|o ops IH] using rev_ind; intros Hf.
    - unfold size_inv; simpl. split; [intros e []|lia].
    - rewrite forallb_app in Hf. simpl in Hf. rewrite file_run_snoc.
      destruct (ghost_run bs rpf ops) as (gs & HG & _).
      apply (size_step gs); auto; [lia|]. apply IH. lia.
  Qed.

  Lemma file_buffer_bound bs rpf ops :
    list_sum_nat (map (@List.length A) (f_buffer (file_run bs rpf ops))) <= bs - 1.
  Proof.
    induction ops as [|o ops IH] using rev_ind; [simpl; lia|].
    rewrite file_run_snoc. set (s := file_run bs rpf ops) in *.
    assert (Hap : forall (s0 : file_state A) rows, f_buffer (file_append s0 rows) = f_buffer s0).
    { intros s0 rows. unfold file_append, get_writer. destruct (f_writer s0); reflexivity. }
    assert (Hfl : forall s0 : file_state A, f_buffer (file_flush s0) = []) by reflexivity.
    assert (Hwb : forall b, list_sum_nat (map (@List.length A) (f_buffer (file_write_batch bs rpf s b))) <= bs - 1).
    { intros b. unfold file_write_batch.
      destruct ((_ <? bs) && _) eqn:E.
      - cbn [f_buffer]. rewrite map_app, list_sum_nat_app. simpl. lia.
      - cbv zeta. destruct (rpf <=? _); [rewrite Hfl; simpl; lia|].
        cbn [f_buffer]. rewrite Hap. simpl. lia. }
    destruct o as [[|a r]|b|t|]; cbn [file_step file_write_rows]; auto;
      try apply Hwb; unfold file_write_table; simpl; lia.
  Qed.

  Lemma file_size_bound m bs rpf ops listing t :
    1 <= rpf -> forallb (small m) ops = true -> lists_files bs rpf ops listing ->
    In t (file_tables listing) -> List.length t <= (rpf - 1) + (bs - 1) + m.
  Proof.
    intros Hr Hf P Ht. rewrite (read_tables _ _ _ _ P) in Ht.
    apply in_map_iff in Ht. destruct Ht as (e & <- & He).
    destruct (ghost_run bs rpf ops) as (gs & HG & _).
    destruct (size_flush gs m bs rpf _ Hr HG (size_run m bs rpf ops Hr Hf)) as (H1 & _).
    apply H1; exact He.
  Qed.

  (* ---- lower bound: only the last file can be short ---- *)
  Definition full_inv (rpf : nat) s : Prop :=
    match f_writer s with
    | None => Forall (fun e : nat * list A => rpf <= List.length (snd e)) (f_dir s)
    | Some _ => exists d e, f_dir s = d ++ [e] /\
                Forall (fun e : nat * list A => rpf <= List.length (snd e)) d
    end.

  Lemma full_step gs bs rpf s o :
    ghost gs s -> batched o = true -> full_inv rpf s -> full_inv rpf (file_step bs rpf s o).
  Proof.
    intros HG Hbat HI.
    assert (Hwb : forall b, full_inv rpf (file_write_batch bs rpf s b)).
    { intros b. unfold file_write_batch.
      destruct ((_ <? bs) && (f_count s <? rpf)) eqn:E; [exact HI|].
      set (batch := match f_buffer s with [] => b | _ :: _ => concat (f_buffer s ++ [b]) end).
      set (s1 := MkFile (f_dir s) (f_writer s) [] (f_count s)).
      assert (G1 : ghost gs s1) by (destruct s; eapply ghost_count_indep; exact HG).
      destruct (ghost_append gs s1 batch [batch] G1)
        as (gs' & HG' & _ & Hbuf & Hcnt & dd & i & c & Hdir & Hlen & Hcase & Hw).
      { simpl. rewrite app_nil_r; reflexivity. }
      assert (Hsz : List.length batch = List.length b + list_sum_nat (map (@List.length A) (f_buffer s))).
      { unfold batch. destruct (f_buffer s) as [|x t]; [simpl; lia|].
        rewrite concat_snoc, app_length, length_concat. lia. }
      assert (HD : Forall (fun e : nat * list A => rpf <= List.length (snd e)) dd).
      { unfold full_inv in HI. cbn [s1 f_dir f_writer] in Hcase.
        destruct Hcase as [[Hd Hw0]|[Hd [_ Hw0]]]; rewrite Hw0 in HI.
        - destruct HI as (d0 & e0 & Hd0 & HF). rewrite Hd in Hd0.
          apply app_inj_tail in Hd0. destruct Hd0 as [-> _]. exact HF.
        - rewrite <- Hd. exact HI. }
      cbv zeta. cbn [f_dir f_writer f_buffer f_count]. rewrite <- Hsz, Hcnt.
      destruct (rpf <=? f_count s1 + List.length batch) eqn:Ef.
      - unfold file_flush. cbn [f_buffer]. rewrite Hbuf. cbn [s1 f_buffer].
        unfold full_inv. cbn [f_dir f_writer]. rewrite Hdir. apply Forall_app. split; [exact HD|].
        constructor; [|constructor]. simpl. rewrite app_length. lia.
      - unfold full_inv. cbn [f_dir f_writer]. rewrite Hw, Hdir. eauto. }
    unfold batched in Hbat. destruct o as [r|b|t|]; cbn [file_step is_table is_flush] in *; try discriminate.
    - unfold file_write_rows. destruct r; [exact HI|apply Hwb].
    - apply Hwb.
  Qed.

  Lemma full_run bs rpf ops :
    forallb batched ops = true -> full_inv rpf (file_run bs rpf ops).
  Proof.
    induction ops as [|o ops IH] using rev_ind; intros Hf; [constructor|].
    rewrite forallb_app in Hf. simpl in Hf. rewrite file_run_snoc.
    destruct (ghost_run bs rpf ops) as (gs & HG & _).
    apply (full_step gs); auto; [lia|]. apply IH. lia.
  Qed.

  Lemma files_full_but_last bs rpf ops listing fs last :
    forallb batched ops = true -> lists_files bs rpf ops listing ->
    file_tables listing = fs ++ [last] -> Forall (fun f => rpf <= List.length f) fs.
  Proof.
    intros Hb P E. rewrite (read_tables _ _ _ _ P) in E.
    destruct (ghost_run bs rpf ops) as (gs & HG & _).
    pose proof (full_run bs rpf ops Hb) as HI. unfold full_inv in HI.
    assert (HD : exists d e, f_dir (file_flush (file_run bs rpf ops)) = d ++ [e]
                 /\ Forall (fun e : nat * list A => rpf <= List.length (snd e)) d).
    { set (s := file_run bs rpf ops) in *.
      unfold file_flush in E |- *. cbn [f_dir] in E |- *.
      destruct (f_buffer s) as [|b t] eqn:Eb.
      - destruct (f_writer s) as [i|] eqn:Ew; [exact HI|].
        destruct (f_dir s) as [|e0 d0] using rev_ind.
        + destruct fs; discriminate.
        + apply Forall_app in HI. exists d0, e0. tauto.
      - destruct (ghost_append gs s (concat (b :: t)) (b :: t) HG eq_refl)
          as (gs' & _ & _ & _ & _ & dd & i & c & Hdir & _ & Hcase & _).
        exists dd, (i, c ++ concat (b :: t)). split; [exact Hdir|].
        destruct Hcase as [[Hd Hw0]|[Hd [_ Hw0]]]; rewrite Hw0 in HI.
        + destruct HI as (d0 & e0 & Hd0 & HF). rewrite Hd in Hd0.
          apply app_inj_tail in Hd0. destruct Hd0 as [-> _]. exact HF.
        + rewrite <- Hd. exact HI. }
    destruct HD as (d & e & Hd & HF). rewrite Hd, map_app in E. simpl in E.
    apply app_inj_tail in E. destruct E as [<- _].
    rewrite Forall_forall in *. intros f Hin. apply in_map_iff in Hin.
    destruct Hin as (x & <- & Hx). apply HF; exact Hx.
  Qed.
End Sizes.

(* ------------------------------------------------------------------ *)
(** * File names *)

From Coq Require Import String Decimal DecimalString DecimalNat.

Section Names.
  Local Open Scope nat_scope.
  Lemma of_uint_pad0 k u : Nat.of_uint (pad0 k u) = Nat.of_uint u.
  Proof. induction k as [|k IH]; simpl; [reflexivity|]. rewrite <- IH. reflexivity. Qed.

  Lemma stem_roundtrip n : int_of_stem (file_stem n) = Some n.
  Proof.
    unfold int_of_stem, file_stem. rewrite NilEmpty.usu. simpl.
    rewrite of_uint_pad0, Unsigned.of_to. reflexivity.
  Qed.
End Names.
