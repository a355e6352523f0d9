(* Filling in the confusion matrix with examples of object detection, one table. *)
From Verif Require Import Prelude Counting CacheModel ClsModel ClsLabelProofs DetModel DetExModel DetSpec DetFlowModel DetLocalProofs DetConfProofs DetEnd DetMatchProofs
  ClsCellModel ClsCellSpec DetTurnSpec DetPicture DetPictureLists DetCellModel DetCellSpec.
From Coq Require Import Lia.
From Coq Require String.
Local Open Scope nat_scope.
Local Open Scope list_scope.

(* ---------------------------------------------------------------- dictionaries *)
Notation pair_example := (String.string * option String.string * option String.string)%type.
Notation lone_example := (String.string * option String.string)%type.
Definition dshaped (names : list String.string) (f : String.string -> String.string -> list pair_example) (h q : String.string -> list lone_example) : dcmx :=
  MkDCmx (map (fun g => (Some g, map (fun p => (Some p, counted (f g p))) names)) names)
    (map (fun g => (Some g, counted (h g))) names) (map (fun p => (Some p, counted (q p))) names).

Lemma dshaped_ext names f f' h h' q q' : (forall g p, In g names -> In p names -> f g p = f' g p) -> (forall g, In g names -> h g = h' g) ->
  (forall g, In g names -> q g = q' g) -> dshaped names f h q = dshaped names f' h' q'.
Proof.
  intros Hf Hh Hq. unfold dshaped. f_equal.
  - apply map_ext_in. intros g Hg. f_equal. apply map_ext_in. intros p Hp. rewrite (Hf g p Hg Hp). reflexivity.
  - apply map_ext_in. intros g Hg. rewrite (Hh g Hg). reflexivity.
  - apply map_ext_in. intros g Hg. rewrite (Hq g Hg). reflexivity.
Qed.
Lemma empty_shaped names : empty_dcmx (map Some names) = dshaped names (fun _ _ => []) (fun _ => []) (fun _ => []).
Proof. unfold empty_dcmx, dshaped, counted. rewrite !map_map. f_equal; apply map_ext; intros a; rewrite ?map_map; reflexivity. Qed.

Lemma lupd_map {V} (v : String.string -> V) (F : V -> option V) names k v' : NoDup names -> In k names -> F (v k) = Some v' ->
  lupd (map (fun n => (Some n, v n)) names) (Some k) F = Some (map (fun n => (Some n, if String.eqb n k then v' else v n)) names).
Proof.
  intros Hn Hk HF. induction Hn as [|a t Ha Hn IH]; [destruct Hk|]. cbn [map lupd lkey_eqb]. destruct (String.eqb_spec k a) as [->|N].
  - rewrite HF, String.eqb_refl. f_equal. f_equal. apply map_ext_in. intros n Hin. destruct (String.eqb_spec n a); [congruence|reflexivity].
  - destruct Hk as [E|Hk]; [congruence|]. rewrite (IH Hk). destruct (String.eqb_spec a k); [congruence|]. reflexivity.
Qed.

Lemma firstn_snoc {A} (l : list A) : forall n, firstn (S n) l = firstn n l ++ match nth_error l n with Some x => [x] | None => [] end.
Proof. induction l as [|a t IH]; intros [|n]; try reflexivity. cbn [firstn nth_error app]. f_equal. apply IH. Qed.

(* the examples of label [g] among the entries *)
Definition pick {K X} (entry : K -> option (lkey * X)) (g : String.string) (l : list K) : list X :=
  flat_map (fun k => match entry k with Some (Some v, x) => if String.eqb g v then [x] else [] | _ => [] end) l.
Definition pick2 {K X} (entry : K -> option (lkey * lkey * X)) (g p : String.string) (l : list K) : list X :=
  flat_map (fun k => match entry k with Some (Some v, Some w, x) => if String.eqb g v && String.eqb p w then [x] else [] | _ => [] end) l.

Section Loop.
  Variables (eps t s : Z) (labels : ldict) (rows : list drow) (names : list String.string).
  Hypothesis Hn : NoDup names.
  Notation gts := (unique_alone_gts eps t s rows).
  Notation pds := (unique_alone_pds eps t s rows).
  Notation prs := (unique_pairs eps t s rows).
  Hypothesis Hgts : forall k, In k gts -> exists v x, lone_gt_entry labels rows k = Some (Some v, x) /\ In v names.
  Hypothesis Hpds : forall k, In k pds -> exists v x, lone_pd_entry labels rows k = Some (Some v, x) /\ In v names.
  Hypothesis Hprs : forall k, In k prs -> exists v w x, match_entry labels rows k = Some (Some v, Some w, x) /\ In v names /\ In w names.

  Lemma bumped {X} (x : X) (l : list X) : bump x (counted l) = Some (counted (l ++ [x])).
  Proof. unfold bump, counted. rewrite app_length. cbn. rewrite Nat.add_1_r. reflexivity. Qed.

  Lemma gt_step f h q n : at_index gts n (add_lone_gt labels rows) (dshaped names f (fun g => h g ++ pick (lone_gt_entry labels rows) g (firstn n gts)) q)
    = Some (dshaped names f (fun g => h g ++ pick (lone_gt_entry labels rows) g (firstn (S n) gts)) q).
  Proof.
    unfold at_index. rewrite firstn_snoc. destruct (nth_error gts n) as [k|] eqn:Ek; [|rewrite app_nil_r; reflexivity].
    destruct (Hgts k (nth_error_In _ _ Ek)) as (v & x & E & Hv). unfold add_lone_gt. rewrite E. unfold dshaped at 1. cbn [dx_cells dx_gts dx_pds].
    rewrite (lupd_map (fun g => counted (h g ++ pick (lone_gt_entry labels rows) g (firstn n gts))) (bump x) names v _ Hn Hv (bumped _ _)).
    f_equal. unfold dshaped. cbn [dx_cells dx_gts dx_pds]. f_equal. apply map_ext_in. intros a _. f_equal.
    unfold pick. rewrite flat_map_app. cbn [flat_map]. rewrite E. destruct (String.eqb_spec a v) as [->|N]; cbn; rewrite ?app_nil_r, ?app_assoc; reflexivity.
  Qed.
  Lemma pd_step f h q n : at_index pds n (add_lone_pd labels rows) (dshaped names f h (fun g => q g ++ pick (lone_pd_entry labels rows) g (firstn n pds)))
    = Some (dshaped names f h (fun g => q g ++ pick (lone_pd_entry labels rows) g (firstn (S n) pds))).
  Proof.
    unfold at_index. rewrite firstn_snoc. destruct (nth_error pds n) as [k|] eqn:Ek; [|rewrite app_nil_r; reflexivity].
    destruct (Hpds k (nth_error_In _ _ Ek)) as (v & x & E & Hv). unfold add_lone_pd. rewrite E. unfold dshaped at 1. cbn [dx_cells dx_gts dx_pds].
    rewrite (lupd_map (fun g => counted (q g ++ pick (lone_pd_entry labels rows) g (firstn n pds))) (bump x) names v _ Hn Hv (bumped _ _)).
    f_equal. unfold dshaped. cbn [dx_cells dx_gts dx_pds]. f_equal. apply map_ext_in. intros a _. f_equal.
    unfold pick. rewrite flat_map_app. cbn [flat_map]. rewrite E. destruct (String.eqb_spec a v) as [->|N]; cbn; rewrite ?app_nil_r, ?app_assoc; reflexivity.
  Qed.
  Lemma match_step f h q n : at_index prs n (add_matched labels rows) (dshaped names (fun g p => f g p ++ pick2 (match_entry labels rows) g p (firstn n prs)) h q)
    = Some (dshaped names (fun g p => f g p ++ pick2 (match_entry labels rows) g p (firstn (S n) prs)) h q).
  Proof.
    unfold at_index. rewrite firstn_snoc. destruct (nth_error prs n) as [k|] eqn:Ek; [|rewrite app_nil_r; reflexivity].
    destruct (Hprs k (nth_error_In _ _ Ek)) as (v & w & x & E & Hv & Hw). unfold add_matched. rewrite E. unfold dshaped at 1. cbn [dx_cells dx_gts dx_pds].
    set (F := fun g p => f g p ++ pick2 (match_entry labels rows) g p (firstn n prs)).
    change (fun g => (Some g, map (fun p => (Some p, counted (f g p ++ pick2 (match_entry labels rows) g p (firstn n prs)))) names))
      with (fun g => (Some g, map (fun p => (Some p, counted (F g p))) names)).
    rewrite (lupd_map (fun g => map (fun p => (Some p, counted (F g p))) names) _ names v
      (map (fun b => (Some b, if String.eqb b w then counted (F v w ++ [x]) else counted (F v b))) names) Hn Hv).
    - f_equal. unfold dshaped. cbn [dx_cells dx_gts dx_pds]. f_equal. apply map_ext_in. intros a _.
      destruct (String.eqb_spec a v) as [->|N]; f_equal; apply map_ext_in; intros b _; f_equal.
      + destruct (String.eqb_spec b w) as [->|N].
        * f_equal. unfold F, pick2. rewrite flat_map_app. cbn [flat_map]. rewrite E, !String.eqb_refl. cbn. rewrite app_assoc. reflexivity.
        * f_equal. unfold F, pick2. rewrite flat_map_app. cbn [flat_map]. rewrite E, String.eqb_refl. destruct (String.eqb_spec b w); [congruence|]. cbn. rewrite !app_nil_r. reflexivity.
      + f_equal. unfold F, pick2. rewrite flat_map_app. cbn [flat_map]. rewrite E. destruct (String.eqb_spec a v); [congruence|]. cbn. rewrite !app_nil_r. reflexivity.
    - apply (lupd_map (fun b => counted (F v b)) (bump x) names w _ Hn Hw (bumped _ _)).
  Qed.

  Notation F f n := (fun g p => f g p ++ pick2 (match_entry labels rows) g p (firstn n prs)).
  Notation H h n := (fun g => h g ++ pick (lone_gt_entry labels rows) g (firstn n gts)).
  Notation Q q n := (fun g => q g ++ pick (lone_pd_entry labels rows) g (firstn n pds)).
  Lemma dcmx_loop f h q n :
    fold_left (fun o idx => obind o (fun M => dcmx_step eps t s labels rows M idx)) (seq 0 n) (Some (dshaped names f h q))
    = Some (dshaped names (F f n) (H h n) (Q q n)).
  Proof.
    induction n as [|n IH].
    - cbn. f_equal. apply dshaped_ext; intros; cbn; rewrite app_nil_r; reflexivity.
    - rewrite seq_S, fold_left_app, IH. cbn [plus fold_left obind]. unfold dcmx_step.
      rewrite (gt_step (F f n) h (Q q n) n). cbn [obind]. rewrite (pd_step (F f n) (H h (S n)) q n). cbn [obind].
      apply (match_step f (H h (S n)) (Q q (S n)) n).
  Qed.
  Lemma dcmx_table_shape f h q : dcmx_table eps t s labels rows (dshaped names f h q)
    = Some (dshaped names (fun g p => f g p ++ pick2 (match_entry labels rows) g p prs) (fun g => h g ++ pick (lone_gt_entry labels rows) g gts)
        (fun g => q g ++ pick (lone_pd_entry labels rows) g pds)).
  Proof. unfold dcmx_table. rewrite dcmx_loop, !firstn_all2 by lia. reflexivity. Qed.
End Loop.

(* ---------------------------------------------------------------- one table *)
Lemma map_inj {A B} (f : A -> B) : (forall x y, f x = f y -> x = y) -> forall l m, map f l = map f m -> l = m.
Proof.
  intros Hf. induction l as [|a l IH]; intros [|b m] E; cbn in E; try discriminate; [reflexivity|]. injection E as E1 E2. f_equal; auto.
Qed.
Definition lone_emb (x : lone_example) : option String.string * option (option String.string) := (Some (fst x), Some (snd x)).
Definition pair_emb (x : pair_example) : option String.string * option (option String.string) * option (option String.string) :=
  (Some (fst (fst x)), Some (snd (fst x)), Some (snd x)).
Lemma lone_emb_inj x y : lone_emb x = lone_emb y -> x = y.
Proof. destruct x, y. unfold lone_emb. cbn. congruence. Qed.
Lemma pair_emb_inj x y : pair_emb x = pair_emb y -> x = y.
Proof. destruct x as [[? ?] ?], y as [[? ?] ?]. unfold pair_emb. cbn. congruence. Qed.
Lemma map_flat_map' {A B C} (g : B -> C) (f : A -> list B) l : map g (flat_map f l) = flat_map (fun x => map g (f x)) l.
Proof. induction l; cbn; [reflexivity|]. rewrite map_app. congruence. Qed.
Lemma index_inj (L : list String.string) v w n : index_of v L = Some n -> index_of w L = Some n -> v = w.
Proof. intros A B. apply index_of_nth in A, B. congruence. Qed.


(* the two ways of listing the examples of a label *)
Lemma pick_list {K} (L : list String.string) (entry : K -> option (lkey * lone_example)) (no : K -> Z) (du : K -> option String.string) (au : K -> option (option String.string)) l g gi :
  (forall k, In k l -> exists v n u a, no k = Z.of_nat n /\ index_of v L = Some n /\ du k = Some u /\ au k = Some a /\ entry k = Some (Some v, (u, a))) ->
  index_of g L = Some gi ->
  map lone_emb (pick entry g l) = map (fun k => (du k, au k)) (filter (fun k => (no k =? Z.of_nat gi)%Z) l).
Proof.
  intros H Hg. induction l as [|k l IH]; [reflexivity|]. destruct (H k (or_introl eq_refl)) as (v & n & u & a & E1 & E2 & E3 & E4 & E5).
  unfold pick in *. cbn [flat_map filter]. rewrite map_app, IH by (intros; apply H; right; assumption). rewrite E5, E1.
  destruct (String.eqb_spec g v) as [->|N].
  - assert (n = gi) by congruence. subst n. rewrite Z.eqb_refl. cbn [map app]. unfold lone_emb. cbn [fst snd]. rewrite E3, E4. reflexivity.
  - destruct (Z.eqb_spec (Z.of_nat n) (Z.of_nat gi)) as [E|_]; [|reflexivity]. apply Nat2Z.inj in E. subst n. destruct N. apply (index_inj L g v gi Hg E2).
Qed.
Lemma pick2_list {K} (L : list String.string) (entry : K -> option (lkey * lkey * pair_example)) (no no' : K -> Z) (du : K -> option String.string)
    (au bu : K -> option (option String.string)) l g gi p pi :
  (forall k, In k l -> exists v n w m u a b, no k = Z.of_nat n /\ index_of v L = Some n /\ no' k = Z.of_nat m /\ index_of w L = Some m /\
    du k = Some u /\ au k = Some a /\ bu k = Some b /\ entry k = Some (Some v, Some w, (u, a, b))) ->
  index_of g L = Some gi -> index_of p L = Some pi ->
  map pair_emb (pick2 entry g p l) = map (fun k => (du k, au k, bu k)) (filter (fun k => (no k =? Z.of_nat gi)%Z && (no' k =? Z.of_nat pi)%Z) l).
Proof.
  intros H Hg Hp. induction l as [|k l IH]; [reflexivity|]. destruct (H k (or_introl eq_refl)) as (v & n & w & m & u & a & b & E1 & E2 & E3 & E4 & E5 & E6 & E7 & E8).
  unfold pick2 in *. cbn [flat_map filter]. rewrite map_app, IH by (intros; apply H; right; assumption). rewrite E8, E1, E3.
  assert (A : String.eqb g v = (Z.of_nat n =? Z.of_nat gi)%Z).
  { destruct (String.eqb_spec g v) as [->|N]; [assert (n = gi) by congruence; subst; rewrite Z.eqb_refl; reflexivity|].
    destruct (Z.eqb_spec (Z.of_nat n) (Z.of_nat gi)) as [E|_]; [|reflexivity]. apply Nat2Z.inj in E. subst n. destruct N. apply (index_inj L g v gi Hg E2). }
  assert (B : String.eqb p w = (Z.of_nat m =? Z.of_nat pi)%Z).
  { destruct (String.eqb_spec p w) as [->|N]; [assert (m = pi) by congruence; subst; rewrite Z.eqb_refl; reflexivity|].
    destruct (Z.eqb_spec (Z.of_nat m) (Z.of_nat pi)) as [E|_]; [|reflexivity]. apply Nat2Z.inj in E. subst m. destruct N. apply (index_inj L p w pi Hp E4). }
  rewrite A, B. destruct (_ && _); [|reflexivity]. cbn [map app]. unfold pair_emb. cbn [fst snd]. rewrite E5, E6, E7. reflexivity.
Qed.

Section Table.
  Variables (eps t s : Z) (ds : list detection) (L : list String.string) (G P : nat -> nat -> Z) (on : nat -> bool) (tb : list drow).
  Hypothesis Hid : ids_increase ds G P.
  Hypothesis Hdis : Forall distinct_pd_labels ds.
  Hypothesis Hlen : forall d pa, In d ds -> In pa (t_pds d) -> length (a_labels pa) = length (a_scores pa).
  Hypothesis Hone : forall d ga, In d ds -> In ga (t_gts d) -> exists gl, a_labels ga = [gl].
  Hypothesis Hpic : pictured eps ds L G P on tb.
  Variables (labels : ldict) (names : list String.string).
  Hypothesis Hn : NoDup names.
  Hypothesis Hlab : forall v n, index_of v L = Some n -> ldict_get labels (Z.of_nat n) = Some (Some v).
  Hypothesis Hnam : forall v, In v names <-> exists n, index_of v L = Some n.

  Lemma gt_uid_row i d g ga r : In r tb -> gt_row ds L G i g r -> nth_error ds i = Some d -> nth_error (t_gts d) g = Some ga -> d_gt r = G i g ->
    det_gt_uid tb (d_gt r) = Some (Some (a_uid ga)).
  Proof. intros Hr R D N E. rewrite E. apply (gt_uid_of eps ds L G P Hid Hlen Hone on tb Hpic i d g ga r Hr R D N). Qed.
  Lemma pd_uid_row i d p pa v sc r : In r tb -> pd_row ds L P i p v sc r -> nth_error ds i = Some d -> nth_error (t_pds d) p = Some pa -> d_pd r = P i p ->
    det_pd_uid tb (d_pd r) = Some (Some (a_uid pa)).
  Proof. intros Hr R D N E. rewrite E. apply (pd_uid_of eps ds L G P Hid Hlen Hone on tb Hpic i d p pa r v sc Hr R D N). Qed.
  Lemma datum_uid_row r : In r tb -> det_datum_uid tb (d_datum r) = Some (d_uid r).
  Proof. apply (datum_uid_of eps ds L G P Hlen Hone on tb Hpic r). Qed.

  Lemma lone_gt_known k : In k (unique_alone_gts eps t s tb) -> exists v n u g, snd k = Z.of_nat n /\ index_of v L = Some n /\
    det_datum_uid tb (fst (fst k)) = Some u /\ det_gt_uid tb (snd (fst k)) = Some g /\ lone_gt_entry labels tb k = Some (Some v, (u, g)).
  Proof.
    intros H. apply isort_dkeys_In in H. destruct H as (r & Hr & Hu & <-). unfold dp_unmatched_gt in Hu.
    assert (H0 : (0 <= d_gt r)%Z) by (unfold gt_exists in Hu; lia).
    destruct (row_gt _ _ _ _ _ _ _ Hpic r Hr H0) as (i & g & O & R). assert (R' := R). destruct R' as (d & ga & v & n & D & N & _ & I & _ & _ & _ & E & E2).
    assert (U := datum_uid_row r Hr). assert (V := gt_uid_row i d g ga r Hr R D N E).
    exists v, n, (d_uid r), (Some (a_uid ga)). unfold lone_gt_entry, gt_key. cbn [fst snd].
    split; [exact E2|]. split; [exact I|]. split; [exact U|]. split; [exact V|]. rewrite U, V, E2, (Hlab v n I). reflexivity.
  Qed.
  Lemma lone_pd_known k : In k (unique_alone_pds eps t s tb) -> exists v n u g, snd k = Z.of_nat n /\ index_of v L = Some n /\
    det_datum_uid tb (fst (fst k)) = Some u /\ det_pd_uid tb (snd (fst k)) = Some g /\ lone_pd_entry labels tb k = Some (Some v, (u, g)).
  Proof.
    intros H. apply isort_dkeys_In in H. destruct H as (r & Hr & Hu & <-). unfold dp_unmatched_pd in Hu.
    assert (H0 : (0 <= d_pd r)%Z) by (unfold pd_exists in Hu; lia).
    destruct (row_pd _ _ _ _ _ _ _ Hpic r Hr H0) as (i & p & v & sc & O & R). assert (R' := R). destruct R' as (d & pa & n & D & N & _ & I & _ & _ & _ & E & E2 & _).
    assert (U := datum_uid_row r Hr). assert (V := pd_uid_row i d p pa v sc r Hr R D N E).
    exists v, n, (d_uid r), (Some (a_uid pa)). unfold lone_pd_entry, pd_key. cbn [fst snd].
    split; [exact E2|]. split; [exact I|]. split; [exact U|]. split; [exact V|]. rewrite U, V, E2, (Hlab v n I). reflexivity.
  Qed.
  Notation k_datum k := (fst (fst (fst (fst k)))).
  Notation k_gt k := (snd (fst (fst (fst k)))).
  Notation k_pd k := (snd (fst (fst k))).
  Lemma pair_known k : In k (unique_pairs eps t s tb) -> exists v n w m u a b, snd (fst k) = Z.of_nat n /\ index_of v L = Some n /\ snd k = Z.of_nat m /\ index_of w L = Some m /\
    det_datum_uid tb (k_datum k) = Some u /\ det_gt_uid tb (k_gt k) = Some a /\ det_pd_uid tb (k_pd k) = Some b /\ match_entry labels tb k = Some (Some v, Some w, (u, a, b)).
  Proof.
    intros H. apply isort_dkeys_In in H. destruct H as (r & Hr & Hu & <-).
    assert (Ht : thresholded eps t s tb r = true) by (unfold dp_tp, dp_misclf in Hu; destruct (thresholded eps t s tb r); [reflexivity|]; cbn in Hu; lia).
    destruct (row_matched eps ds L G P Hid Hdis Hlen on tb Hpic t s r Hr Ht) as (i & d & g & ga & p & pa & w & sc & O & D & Ng & Np & Rg & Rp & _).
    assert (Rg' := Rg). destruct Rg' as (d1 & ga1 & v & n & D1 & N1 & _ & I & _ & _ & _ & E & E2).
    assert (Rp' := Rp). destruct Rp' as (d2 & pa2 & m & D2 & N2 & _ & I' & _ & _ & _ & E' & E2' & _).
    assert (U := datum_uid_row r Hr). assert (V := gt_uid_row i d g ga r Hr Rg D Ng E). assert (W := pd_uid_row i d p pa w sc r Hr Rp D Np E').
    exists v, n, w, m, (d_uid r), (Some (a_uid ga)), (Some (a_uid pa)). unfold match_entry, row_ids. cbn [fst snd].
    split; [exact E2|]. split; [exact I|]. split; [exact E2'|]. split; [exact I'|]. split; [exact U|]. split; [exact V|]. split; [exact W|].
    rewrite U, V, W, E2, E2', (Hlab v n I), (Hlab w m I'). reflexivity.
  Qed.

  Definition lone_of (d : detection) (l : list annotation) : list lone_example := map (fun a => (t_uid d, Some (a_uid a))) l.
  Definition pairs_in (d : detection) (l : list (annotation * annotation)) : list pair_example :=
    map (fun y => (t_uid d, Some (a_uid (fst y)), Some (a_uid (snd y)))) l.
  Lemma table_gts g : In g names -> pick (lone_gt_entry labels tb) g (unique_alone_gts eps t s tb)
    = flat_map (fun x => lone_of (snd x) (lone_gts eps t s (snd x) g)) (shown ds on).
  Proof.
    intros Hg. apply Hnam in Hg. destruct Hg as (gi & Hg). apply (map_inj lone_emb lone_emb_inj).
    rewrite (pick_list L _ (fun k => snd k) (fun k => det_datum_uid tb (fst (fst k))) (fun k => det_gt_uid tb (snd (fst k))) _ g gi lone_gt_known Hg).
    rewrite (map_flat_map lone_emb). unfold lone_of. erewrite flat_map_ext by (intros; apply map_map).
    apply (lone_gts_list eps ds L G P Hid Hdis Hlen Hone on tb Hpic t s g gi Hg).
  Qed.
  Lemma table_pds g : In g names -> pick (lone_pd_entry labels tb) g (unique_alone_pds eps t s tb)
    = flat_map (fun x => lone_of (snd x) (lone_pds eps t s (snd x) g)) (shown ds on).
  Proof.
    intros Hg. apply Hnam in Hg. destruct Hg as (gi & Hg). apply (map_inj lone_emb lone_emb_inj).
    rewrite (pick_list L _ (fun k => snd k) (fun k => det_datum_uid tb (fst (fst k))) (fun k => det_pd_uid tb (snd (fst k))) _ g gi lone_pd_known Hg).
    rewrite (map_flat_map lone_emb). unfold lone_of. erewrite flat_map_ext by (intros; apply map_map).
    apply (lone_pds_list eps ds L G P Hid Hdis Hlen Hone on tb Hpic t s g gi Hg).
  Qed.
  Lemma table_pairs g p : In g names -> In p names -> pick2 (match_entry labels tb) g p (unique_pairs eps t s tb)
    = flat_map (fun x => pairs_in (snd x) (cell_pairs eps t s (snd x) g p)) (shown ds on).
  Proof.
    intros Hg Hp. apply Hnam in Hg, Hp. destruct Hg as (gi & Hg). destruct Hp as (pi & Hp). apply (map_inj pair_emb pair_emb_inj).
    rewrite (pick2_list L _ (fun k => snd (fst k)) (fun k => snd k) (fun k => det_datum_uid tb (k_datum k)) (fun k => det_gt_uid tb (k_gt k)) (fun k => det_pd_uid tb (k_pd k))
      _ g gi p pi pair_known Hg Hp).
    rewrite (map_flat_map pair_emb). unfold pairs_in. erewrite flat_map_ext by (intros; apply map_map).
    etransitivity; [|apply (cell_list eps ds L G P Hid Hdis Hlen Hone on tb Hpic t s g p gi pi Hg Hp)].
    unfold det_cell_examples. apply map_ext. intros [[[[? ?] ?] ?] ?]. reflexivity.
  Qed.
  Lemma table_fills f h q : dcmx_table eps t s labels tb (dshaped names f h q)
    = Some (dshaped names (fun g p => f g p ++ flat_map (fun x => pairs_in (snd x) (cell_pairs eps t s (snd x) g p)) (shown ds on))
        (fun g => h g ++ flat_map (fun x => lone_of (snd x) (lone_gts eps t s (snd x) g)) (shown ds on))
        (fun g => q g ++ flat_map (fun x => lone_of (snd x) (lone_pds eps t s (snd x) g)) (shown ds on))).
  Proof.
    rewrite (dcmx_table_shape eps t s labels tb names Hn).
    - f_equal. apply dshaped_ext; intros.
      + rewrite table_pairs by assumption. reflexivity.
      + rewrite table_gts by assumption. reflexivity.
      + rewrite table_pds by assumption. reflexivity.
    - intros k Hk. destruct (lone_gt_known k Hk) as (v & n & u & g & _ & I & _ & _ & E). exists v, (u, g). split; [exact E|]. apply Hnam. eauto.
    - intros k Hk. destruct (lone_pd_known k Hk) as (v & n & u & g & _ & I & _ & _ & E). exists v, (u, g). split; [exact E|]. apply Hnam. eauto.
    - intros k Hk. destruct (pair_known k Hk) as (v & n & w & m & u & a & b & _ & I & _ & J & _ & _ & _ & E). exists v, w, (u, a, b).
      split; [exact E|]. split; apply Hnam; eauto.
  Qed.
End Table.
