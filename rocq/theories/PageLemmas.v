(* Which keys a page of paginate_index holds, in which order. *)
From Verif Require Import Prelude CacheModel CacheSpec PaginateProofs PageSpec.

Lemma sorted_lt_eq l : forall l', StronglySorted Z.lt l -> StronglySorted Z.lt l' -> (forall x, In x l <-> In x l') -> l = l'.
Proof.
  induction l as [|a t IH]; intros [|b t'] H1 H2 H; [reflexivity| | |].
  - exfalso. apply (H b). left. reflexivity.
  - exfalso. apply (H a). left. reflexivity.
  - inversion H1 as [|? ? Hs Hf]; subst. inversion H2 as [|? ? Hs' Hf']; subst. rewrite Forall_forall in Hf, Hf'.
    assert (E : a = b).
    { destruct (proj1 (H a) (or_introl eq_refl)) as [E|Ha]; [auto|]. destruct (proj2 (H b) (or_introl eq_refl)) as [E|Hb]; [auto|].
      specialize (Hf b Hb). specialize (Hf' a Ha). lia. }
    subst b. f_equal. apply IH; auto. intros x. split; intros Hx.
    + destruct (proj1 (H x) (or_intror Hx)) as [E|Hx']; [subst; specialize (Hf x Hx); lia|exact Hx'].
    + destruct (proj2 (H x) (or_intror Hx)) as [E|Hx']; [subst; specialize (Hf' x Hx); lia|exact Hx'].
Qed.

Lemma sorted_lt_filter P l : StronglySorted Z.lt l -> StronglySorted Z.lt (filter P l).
Proof.
  induction 1 as [|a t Hs IH Hf]; [constructor|]. cbn. destruct (P a); [|exact IH]. constructor; [exact IH|].
  apply Forall_forall. intros x Hx. apply filter_In in Hx. rewrite Forall_forall in Hf. apply Hf. tauto.
Qed.

Lemma nth_error_take {A} (l : list A) : forall n k, k < n -> nth_error (firstn n l) k = nth_error l k.
Proof.
  induction l as [|a t IH]; intros [|n] [|k] H; try lia; try reflexivity. cbn. apply IH. lia.
Qed.

Lemma filter_ge_skipn u : forall k v, StronglySorted Z.lt u -> nth_error u k = Some v -> filter (fun x => (v <=? x)%Z) u = skipn k u.
Proof.
  induction u as [|a t IH]; intros k v Hs Hk; [destruct k; discriminate|]. inversion Hs as [|? ? Hs' Hf]; subst. rewrite Forall_forall in Hf.
  destruct k as [|k]; cbn in *.
  - injection Hk as ->. rewrite Z.leb_refl. f_equal. apply filter_all. intros x Hx. specialize (Hf x Hx). lia.
  - pose proof (Hf v (nth_error_In _ _ Hk)). replace (v <=? a)%Z with false by lia. apply IH; auto.
Qed.
Lemma filter_lt_firstn u : forall k v, StronglySorted Z.lt u -> nth_error u k = Some v -> filter (fun x => (x <? v)%Z) u = firstn k u.
Proof.
  induction u as [|a t IH]; intros k v Hs Hk; [destruct k; discriminate|]. inversion Hs as [|? ? Hs' Hf]; subst. rewrite Forall_forall in Hf.
  destruct k as [|k]; cbn in *.
  - injection Hk as ->. rewrite Z.ltb_irrefl. apply filter_none. intros x Hx. specialize (Hf x Hx). lia.
  - pose proof (Hf v (nth_error_In _ _ Hk)). replace (a <? v)%Z with true by lia. f_equal. apply IH; auto.
Qed.

Section Keys.
  Context {A : Type}.
  Variable key : A -> Z.
  Local Notation U := (sorted_unique key).

  Lemma unique_filter P t : U (filter (fun r => P (key r)) t) = filter P (U t).
  Proof.
    apply sorted_lt_eq; [apply sorted_unique_lt|apply sorted_lt_filter, sorted_unique_lt|].
    intros x. rewrite filter_In, !sorted_unique_In, !in_map_iff. split.
    - intros (r & <- & Hr). apply filter_In in Hr. destruct Hr. split; eauto.
    - intros ((r & <- & Hr) & HP). exists r. split; [reflexivity|]. apply filter_In. auto.
  Qed.

  Lemma loop_keys off lim ts : forall curr,
    concat (map U (paginate_loop key off lim curr ts)) = skipn (off - curr) (firstn (off + lim - curr) (concat (map U ts))).
  Proof.
    induction ts as [|tbl rest IH]; intros curr; [cbn; rewrite firstn_nil, skipn_nil; reflexivity|].
    cbn [paginate_loop map concat]. destruct tbl as [|r0 tl0]; [apply IH|].
    set (tbl := r0 :: tl0). cbv zeta. set (u := U tbl). set (K := concat (map U rest)).
    rewrite firstn_app, skipn_app, firstn_length.
    destruct (Nat.leb_spec (curr + length u) off) as [E1|E1].
    - rewrite IH. fold K. rewrite (skipn_all2 (firstn _ u)) by (rewrite firstn_length; lia). cbn [app]. f_equal; [|f_equal]; lia.
    - destruct (Nat.leb_spec (off + lim) curr) as [E2|E2].
      + replace (off + lim - curr) with 0 by lia. cbn. rewrite skipn_nil, skipn_nil. reflexivity.
      + cbn [map concat]. rewrite IH. fold K. f_equal.
        * pose proof (sorted_unique_lt key tbl) as Hs. fold u in Hs.
          set (lo := if (curr <? off) && (off <? curr + length u) then nth_error u (off - curr) else None).
          set (hi := if (curr <? off + lim) && (off + lim <? curr + length u) then nth_error u (off + lim - curr) else None).
          rewrite (unique_filter (fun z => match lo with Some v => (v <=? z)%Z | None => true end && match hi with Some v => (z <? v)%Z | None => true end)).
          fold u.
          assert (Ehi : filter (fun z => match hi with Some v => (z <? v)%Z | None => true end) u = firstn (off + lim - curr) u).
          { unfold hi. destruct ((curr <? off + lim) && (off + lim <? curr + length u)) eqn:C.
            - destruct (nth_error u (off + lim - curr)) as [v|] eqn:En; [|apply nth_error_None in En; lia].
              apply filter_lt_firstn; auto.
            - rewrite filter_all by reflexivity. symmetry. apply firstn_all2. lia. }
          assert (Elo : filter (fun z => match lo with Some v => (v <=? z)%Z | None => true end) u = skipn (off - curr) u).
          { unfold lo. destruct ((curr <? off) && (off <? curr + length u)) eqn:C.
            - destruct (nth_error u (off - curr)) as [v|] eqn:En; [|apply nth_error_None in En; lia].
              apply filter_ge_skipn; auto.
            - rewrite filter_all by reflexivity. replace (off - curr) with 0 by lia. reflexivity. }
          assert (Eand : forall (f g : Z -> bool) l, filter (fun z => f z && g z) l = filter f (filter g l)).
          { clear. intros f g l. induction l as [|x t IH]; [reflexivity|]. cbn. destruct (g x); cbn.
            - rewrite andb_true_r, IH. reflexivity.
            - rewrite andb_false_r. exact IH. }
          rewrite Eand, Ehi. unfold lo in *. destruct ((curr <? off) && (off <? curr + length u)) eqn:C.
          -- destruct (nth_error u (off - curr)) as [v|] eqn:En; [|apply nth_error_None in En; lia].
             destruct lim as [|lim].
             { (* nothing is taken *)
               rewrite Nat.add_0_r. rewrite (skipn_all2 (firstn _ u)) by (rewrite firstn_length; lia).
               apply filter_none. intros x Hx. rewrite <- (filter_lt_firstn u (off - curr) v Hs En) in Hx. apply filter_In in Hx. lia. }
             apply filter_ge_skipn.
             ++ clear -Hs. revert Hs. generalize (off + S lim - curr). induction u as [|a t IH]; intros [|n] Hs; cbn; try constructor.
                ** inversion Hs; subst. apply IH. assumption.
                ** inversion Hs as [|? ? _ Hf]; subst. apply Forall_forall. intros x Hx. rewrite Forall_forall in Hf. apply Hf.
                   rewrite <- (firstn_skipn n t). apply in_app_iff. left. exact Hx.
             ++ rewrite nth_error_take by lia. exact En.
          -- rewrite filter_all by reflexivity. replace (off - curr) with 0 by lia. reflexivity.
        * destruct (Nat.leb_spec (length u) (off + lim - curr)).
          -- f_equal; [|f_equal]; lia.
          -- replace (off + lim - (curr + length u)) with 0 by lia. replace (off + lim - curr - length u) with 0 by lia.
             cbn. rewrite !skipn_nil. reflexivity.
  Qed.

  Lemma unique_length t : length (U t) = length (distinct_keys key t).
  Proof. apply Permutation_length, sorted_unique_perm. Qed.
  Lemma keys_length ts : length (concat (map U ts)) <= length (concat ts).
  Proof.
    rewrite length_concat, map_map. rewrite (map_ext _ (fun t => length (distinct_keys key t))) by (intros; apply unique_length).
    apply (nkeys_le_rows key ts).
  Qed.

  (* the keys of a page *)
  Lemma paginate_keys m limit offset tables :
    concat (map U (paginate_index key m limit offset tables)) = page_of limit offset (concat (map U (map (filter m) tables))).
  Proof.
    unfold paginate_index. pose proof (keys_length (map (filter m) tables)) as H1. pose proof (filtered_le m tables) as H2.
    set (K := concat (map U (map (filter m) tables))) in *. set (total := length (concat tables)) in *.
    set (lim := match limit with None | Some 0 => total | Some (S _ as n) => n end).
    destruct (Nat.eqb offset 0 && (total <=? lim)) eqn:E.
    - fold K. apply andb_true_iff in E. destruct E as [E1 E2]. apply Nat.eqb_eq in E1. subst offset. apply Nat.leb_le in E2.
      unfold page_of. cbn [skipn]. destruct limit as [[|n]|]; try reflexivity. symmetry. apply firstn_all2. unfold lim in E2. lia.
    - destruct (Nat.leb_spec total offset) as [E2|E2].
      + cbn. unfold page_of. rewrite skipn_all2 by lia. destruct limit as [[|n]|]; try reflexivity. 
      + rewrite loop_keys. fold K. rewrite !Nat.sub_0_r. unfold page_of.
        destruct limit as [[|n]|]; cbn [lim]; unfold lim.
        * rewrite firstn_all2 by lia. reflexivity.
        * rewrite skipn_firstn_comm. f_equal. lia.
        * rewrite firstn_all2 by lia. reflexivity.
  Qed.

  Lemma loop_tables off lim ts : forall curr t', In t' (paginate_loop key off lim curr ts) ->
    exists t P, In t ts /\ t' = filter (fun r => P (key r)) t.
  Proof.
    induction ts as [|tbl rest IH]; intros curr t' H; [destruct H|]. cbn [paginate_loop] in H. destruct tbl as [|r0 tl0].
    - destruct (IH _ _ H) as (t & P & Ht & E). exists t, P. split; [right; exact Ht|exact E].
    - cbv zeta in H. destruct (_ <=? off).
      { destruct (IH _ _ H) as (t & P & Ht & E). exists t, P. split; [right; exact Ht|exact E]. }
      destruct (off + lim <=? curr); [destruct H|]. destruct H as [H|H].
      + eexists (r0 :: tl0), (fun z => match _ with Some v => (v <=? z)%Z | None => true end && match _ with Some v => (z <? v)%Z | None => true end).
        split; [left; reflexivity|]. symmetry. exact H.
      + destruct (IH _ _ H) as (t & P & Ht & E). exists t, P. split; [right; exact Ht|exact E].
  Qed.
  Lemma paginate_tables m limit offset tables t' : In t' (paginate_index key m limit offset tables) ->
    exists t P, In t tables /\ t' = filter (fun r => P (key r)) (filter m t).
  Proof.
    unfold paginate_index. destruct (_ && _).
    - intros H. apply in_map_iff in H. destruct H as (t & <- & Ht). exists t, (fun _ => true). split; [exact Ht|].
      symmetry. apply filter_all. reflexivity.
    - destruct (_ <=? offset); [intros []|]. intros H. apply loop_tables in H. destruct H as (t & P & Ht & ->).
      apply in_map_iff in Ht. destruct Ht as (t0 & <- & Ht). eauto.
  Qed.

  (* tables in key order *)
  Definition in_order (ts : list (list A)) : Prop :=
    StronglySorted (fun t t' => forall a b, In a t -> In b t' -> (key a < key b)%Z) ts.

  Lemma in_order_single t : in_order [t].
  Proof. repeat constructor. Qed.
  Lemma in_order_map f ts : (forall t a, In a (f t) -> In a t) -> in_order ts -> in_order (map f ts).
  Proof.
    intros Hf. induction 1 as [|t ts Hs IH Hfa]; cbn; constructor; [exact IH|]. apply Forall_forall. intros t' Ht'.
    apply in_map_iff in Ht'. destruct Ht' as (t0 & <- & Ht0). rewrite Forall_forall in Hfa. intros a b Ha Hb. apply (Hfa t0 Ht0); auto.
  Qed.
  Lemma in_order_app l1 l2 : in_order (l1 ++ l2) -> in_order l1 /\ in_order l2 /\
    forall a b, In a (concat l1) -> In b (concat l2) -> (key a < key b)%Z.
  Proof.
    intros H. apply StronglySorted_app in H. destruct H as (H1 & H2 & H3). split; [exact H1|]. split; [exact H2|].
    intros a b Ha Hb. apply in_concat in Ha, Hb. destruct Ha as (ta & Hta & Ha), Hb as (tb & Htb & Hb). apply (H3 ta tb); auto.
  Qed.
  Lemma in_order_groups gs : in_order (concat gs) -> in_order (map (@concat A) gs).
  Proof.
    induction gs as [|g gs IH]; intros H; [constructor|]. cbn in *. apply in_order_app in H. destruct H as (_ & H2 & H3).
    constructor; [apply IH; exact H2|]. apply Forall_forall. intros t Ht a b Ha Hb. apply in_map_iff in Ht. destruct Ht as (g' & <- & Hg').
    apply H3; [exact Ha|]. apply in_concat in Hb. destruct Hb as (t & Ht & Hb). apply in_concat. exists t. split; [|exact Hb].
    apply in_concat. eauto.
  Qed.
  Lemma in_order_keys ts : in_order ts -> StronglySorted Z.lt (concat (map U ts)).
  Proof.
    induction 1 as [|t ts Hs IH Hf]; [constructor|]. cbn. apply StronglySorted_app. split; [apply sorted_unique_lt|]. split; [exact IH|].
    intros a b Ha Hb. apply sorted_unique_In, in_map_iff in Ha. destruct Ha as (ra & <- & Hra). apply in_concat in Hb.
    destruct Hb as (u & Hu & Hb). apply in_map_iff in Hu. destruct Hu as (t' & <- & Ht').
    apply sorted_unique_In, in_map_iff in Hb. destruct Hb as (rb & <- & Hrb). rewrite Forall_forall in Hf. apply (Hf t' Ht'); auto.
  Qed.
  Lemma keys_In ts x : In x (concat (map U ts)) <-> exists r, In r (concat ts) /\ key r = x.
  Proof.
    split.
    - intros H. apply in_concat in H. destruct H as (u & Hu & Hx). apply in_map_iff in Hu. destruct Hu as (t & <- & Ht).
      apply sorted_unique_In, in_map_iff in Hx. destruct Hx as (r & <- & Hr). exists r. split; [apply in_concat; eauto|reflexivity].
    - intros (r & Hr & <-). apply in_concat in Hr. destruct Hr as (t & Ht & Hr). apply in_concat. exists (U t).
      split; [apply in_map; exact Ht|]. apply sorted_unique_In, in_map. exact Hr.
  Qed.
End Keys.

(* pages of lists *)
Lemma page_map {A B} (f : A -> B) limit offset l : map f (page_of limit offset l) = page_of limit offset (map f l).
Proof. unfold page_of. destruct limit as [[|n]|]; rewrite ?skipn_map, ?firstn_map; reflexivity. Qed.
Lemma pages_concat {A} n (l : list A) : forall k, concat (map (fun i => page_of (Some (S n)) (i * S n) l) (seq 0 k)) = firstn (k * S n) l.
Proof.
  induction k as [|k IH]; [reflexivity|]. rewrite seq_S, map_app, concat_app, IH. cbn [map concat plus]. rewrite app_nil_r. unfold page_of.
  replace (S k * S n) with (k * S n + S n) by lia. clear. generalize (S n) as b, (k * S n) as a. intros b a. revert l.
  induction a as [|a IH]; intros l; [reflexivity|]. destruct l as [|x t]; [cbn; rewrite !firstn_nil; reflexivity|]. cbn. f_equal. apply IH.
Qed.
