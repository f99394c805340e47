(** Proofs of the property theorems of Properties/P_Synth.v. *)
From Coq Require Import Qround.
From Verif.Model Require Import PyBase Rand Plot GreedyArea Data Synth.
From Verif.Spec Require Import SSynth.
Open Scope Z_scope.
From Verif.Proofs Require Import PBase PAssign PRand T_Plot T_Data T_GreedyArea.
Open Scope Z_scope.

(** ** Matrices given by a function *)
Lemma seqZ_lookup (n i : Z) : 0 <= i < n -> seqZ 0 n !! Z.to_nat i = Some i.
Proof. intros H. apply lookup_seqZ. lia. Qed.
Lemma zlen_seqZ (a n : Z) : 0 <= n -> zlen (seqZ a n) = n.
Proof. intros H. unfold zlen. rewrite seqZ_length. lia. Qed.

Lemma mat_ext n d f g : (forall i j, 0 <= i < n -> 0 <= j < d -> f i j = g i j) -> mat n d f = mat n d g.
Proof.
  intros H. apply map_ext_in. intros i Hi. apply map_ext_in. intros j Hj.
  apply elem_of_list_In, elem_of_seqZ in Hi. apply elem_of_list_In, elem_of_seqZ in Hj. apply H; lia.
Qed.

Lemma mat_index n d f i : 0 <= i < n -> py_index (mat n d f) i = Ok (map (f i) (seqZ 0 d)).
Proof.
  intros Hi. eapply (index_at _ i i); [by left|lia|]. unfold mat. by rewrite list_lookup_fmap, seqZ_lookup.
Qed.

Lemma map_insert (f : Z -> Z) d j v : 0 <= j < d ->
  <[Z.to_nat j := v]> (map f (seqZ 0 d)) = map (fun b => if decide (b = j) then v else f b) (seqZ 0 d).
Proof.
  intros Hj. apply list_eq. intros k. rewrite !list_lookup_fmap. destruct (decide (k = Z.to_nat j)) as [->|Hk].
  - rewrite list_lookup_insert by (rewrite map_length, seqZ_length; lia). rewrite seqZ_lookup by lia. cbn.
    by rewrite decide_True.
  - rewrite list_lookup_insert_ne by done. rewrite list_lookup_fmap. destruct (seqZ 0 d !! k) as [b|] eqn:E; [|done]. cbn.
    apply lookup_seqZ in E. rewrite decide_False by lia. done.
Qed.

Lemma mat_insert (f : Z -> Z -> Z) n d i (r : Z -> Z) : 0 <= i < n ->
  <[Z.to_nat i := map r (seqZ 0 d)]> (mat n d f) = mat n d (fun a b => if decide (a = i) then r b else f a b).
Proof.
  intros Hi. apply list_eq. intros k. unfold mat. rewrite list_lookup_fmap. destruct (decide (k = Z.to_nat i)) as [->|Hk].
  - rewrite list_lookup_insert by (rewrite map_length, seqZ_length; lia). rewrite seqZ_lookup by lia. cbn.
    f_equal. apply map_ext. intros b. by rewrite decide_True.
  - rewrite list_lookup_insert_ne by done. rewrite list_lookup_fmap. destruct (seqZ 0 n !! k) as [a|] eqn:E; [|done]. cbn.
    apply lookup_seqZ in E. f_equal. apply map_ext. intros b. rewrite decide_False by lia. done.
Qed.

Lemma mat_set n d f i j v : 0 <= i < n -> 0 <= j < d ->
  set_cell (mat n d f) i j v = Ok (mat n d (fun a b => if decide (a = i /\ b = j) then v else f a b)).
Proof.
  intros Hi Hj. unfold set_cell. rewrite mat_index by done. cbn [rbind]. rewrite py_setitem_ok by (rewrite zlen_map, zlen_seqZ; lia).
  cbn [rbind]. rewrite map_insert by done. rewrite py_setitem_ok by (unfold mat; rewrite zlen_map, zlen_seqZ; lia).
  rewrite mat_insert by done. f_equal. apply mat_ext. intros a b _ _. destruct (decide (a = i)) as [->|].
  - destruct (decide (b = j)) as [->|]; [by rewrite decide_True|]. rewrite decide_False by naive_solver. done.
  - rewrite decide_False by naive_solver. done.
Qed.

Lemma mat_zeros n d : 0 <= n -> 0 <= d -> zeros n d = mat n d (fun _ _ => 0).
Proof.
  intros Hn Hd. unfold zeros, mat. apply list_eq. intros k. rewrite list_lookup_fmap.
  destruct (decide (k < Z.to_nat n)%nat).
  - rewrite lookup_replicate_2 by done. rewrite (lookup_seqZ_lt _ _ _) by lia. cbn. f_equal.
    apply list_eq. intros k'. rewrite list_lookup_fmap. destruct (decide (k' < Z.to_nat d)%nat).
    + rewrite lookup_replicate_2 by done. rewrite (lookup_seqZ_lt _ _ _) by lia. done.
    + rewrite (lookup_ge_None_2 (replicate _ _)) by (rewrite replicate_length; lia). rewrite (lookup_seqZ_ge) by lia. done.
  - rewrite (lookup_ge_None_2 (replicate _ _)) by (rewrite replicate_length; lia). rewrite (lookup_seqZ_ge) by lia. done.
Qed.

Lemma mat_swap n d f i j : 0 <= i < n -> 0 <= j < d ->
  swap_cell (mat n d f) i j = Ok (mat n d (fun a b => if decide (a = i /\ b = j) then 1 - f a b else f a b)).
Proof.
  intros Hi Hj. unfold swap_cell. rewrite mat_index by done. cbn [rbind].
  rewrite (index_at _ j j (f i j)); [|by left|lia|by rewrite list_lookup_fmap, seqZ_lookup]. cbn [rbind].
  rewrite mat_set by done. f_equal. apply mat_ext. intros a b _ _. destruct (decide (a = i /\ b = j)) as [[-> ->]|]; done.
Qed.

(** ** Covering *)
Definition paint1 (side cov : list Z) (f : Z -> Z -> Z) (a b : Z) : Z := if bool_decide (a ∈ cov /\ b ∈ side) then 1 else f a b.

Lemma set_row n d ex side : forall f, 0 <= ex < n -> Forall (fun j => 0 <= j < d) side ->
  rfold (fun F attr => set_cell F ex attr 1) (mat n d f) side = Ok (mat n d (paint1 side [ex] f)).
Proof.
  induction side as [|j side IH]; intros f Hex Hs.
  - cbn [rfold]. f_equal. apply mat_ext. intros a b _ _. unfold paint1. rewrite bool_decide_eq_false_2; [done|]. intros [_ H]. by apply elem_of_nil in H.
  - apply list.Forall_cons in Hs as [Hj Hs]. cbn [rfold]. rewrite mat_set by done. cbn [rbind]. rewrite IH by done. f_equal. apply mat_ext.
    intros a b _ _. unfold paint1. destruct (decide (a ∈ [ex] /\ b ∈ side)) as [[H1 H2]|Hn].
    + rewrite !bool_decide_eq_true_2; [done|split; [done|by right]|done].
    + rewrite (bool_decide_eq_false_2 (a ∈ [ex] /\ b ∈ side)) by done. destruct (decide (a = ex /\ b = j)) as [[-> ->]|Hne].
      * rewrite bool_decide_eq_true_2; [done|]. split; left.
      * rewrite bool_decide_eq_false_2; [done|]. intros [H1 H2]. apply elem_of_cons in H2 as [-> | H2]; [|naive_solver].
        apply elem_of_list_singleton in H1 as ->. naive_solver.
Qed.

Lemma paint1_cons side ex cov f : forall a b, paint1 side cov (paint1 side [ex] f) a b = paint1 side (ex :: cov) f a b.
Proof.
  intros a b. unfold paint1. destruct (decide (a ∈ cov /\ b ∈ side)) as [[H1 H2]|Hn].
  - rewrite !bool_decide_eq_true_2; [done|split; [by right|done]|done].
  - rewrite (bool_decide_eq_false_2 (a ∈ cov /\ b ∈ side)) by done. apply (f_equal (fun x : bool => if x then 1 else f a b)).
    apply bool_decide_ext. rewrite (elem_of_cons cov), elem_of_list_singleton. naive_solver.
Qed.

Lemma cover_ok n d l (head tail : list Z) cov : forall f g, Forall (fun i => 0 <= i < n) cov ->
  Forall (fun j => 0 <= j < d) head -> Forall (fun j => 0 <= j < l) tail ->
  rfold (cover_example (head, tail)) (mat n d f, mat n l g) cov
  = Ok (mat n d (paint1 head cov f), mat n l (paint1 tail cov g)).
Proof.
  induction cov as [|ex cov IH]; intros f g Hc Hh Ht.
  - cbn [rfold]. do 2 f_equal; apply mat_ext; intros a b _ _; unfold paint1; rewrite bool_decide_eq_false_2; try done; intros [H _]; by apply elem_of_nil in H.
  - apply list.Forall_cons in Hc as [He Hc]. cbn [rfold]. unfold cover_example at 1. cbn [fst snd]. rewrite set_row by done. cbn [rbind].
    rewrite set_row by done. cbn [rbind]. rewrite IH by done. do 2 f_equal; apply mat_ext; intros a b _ _; apply paint1_cons.
Qed.

(** painting rule after rule *)
Fixpoint paint (sides covers : list (list Z)) (f : Z -> Z -> Z) : Z -> Z -> Z :=
  match sides, covers with
  | s :: sides', c :: covers' => paint sides' covers' (paint1 s c f)
  | _, _ => f
  end.

Lemma paint_eq sides : forall covers f a b,
  paint sides covers f a b = if bool_decide (Exists (fun sc => a ∈ snd sc /\ b ∈ fst sc) (zip sides covers)) then 1 else f a b.
Proof.
  induction sides as [|s sides IH]; intros covers f a b.
  - cbn [paint]. rewrite bool_decide_eq_false_2; [done|]. intros H. inversion H.
  - destruct covers as [|c covers].
    + cbn [paint]. rewrite bool_decide_eq_false_2; [done|]. intros H. inversion H.
    + cbn [paint]. rewrite IH. unfold paint1. change (zip (s :: sides) (c :: covers)) with ((s, c) :: zip sides covers).
      destruct (decide (Exists (fun sc => a ∈ snd sc /\ b ∈ fst sc) (zip sides covers))) as [H|H].
      * rewrite !bool_decide_eq_true_2; [done|by apply Exists_cons; right|done].
      * rewrite (bool_decide_eq_false_2 _ H). apply (f_equal (fun x : bool => if x then 1 else f a b)).
        apply bool_decide_ext. rewrite Exists_cons. cbn [fst snd]. naive_solver.
Qed.

Lemma paint_painted sides covers : forall a b, paint sides covers (fun _ _ => 0) a b = painted sides covers a b.
Proof. intros a b. apply paint_eq. Qed.

(** ** Elementary draws *)
Lemma can_rand_int lo hi o : can (rand_int lo hi) o <-> if hi <=? lo then o = Err ValueError else exists x, o = Ok x /\ lo <= x < hi.
Proof.
  unfold rand_int. destruct (Z.leb_spec hi lo); [done|]. rewrite can_uniform.
  - split; intros (x & H1 & H2); [apply elem_of_seqZ in H1|]; exists x; (split; [done || apply elem_of_seqZ|]); try lia; done.
  - intros E. apply (f_equal length) in E. rewrite seqZ_length in E. cbn in E. lia.
Qed.

Lemma can_sample {A} k : forall (xs : list A) o, NoDup xs -> (k <= length xs)%nat ->
  (can (sample_distinct k xs) o <-> exists l, o = Ok l /\ NoDup l /\ length l = k /\ forall x, x ∈ l -> x ∈ xs).
Proof.
  induction k as [|k IH]; intros xs o Hnd Hk.
  - cbn. split.
    + intros ->. exists []. split_and!; [done|constructor|done|]. intros x Hx. by apply elem_of_nil in Hx.
    + intros (l & -> & _ & Hl & _). by destruct l.
  - cbn [sample_distinct]. rewrite can_bind. split.
    + intros (a & Ha & Hb). apply can_uniform in Ha as (i & Hi & ->); [|intros E; apply (f_equal length) in E; rewrite seq_length in E; cbn in E; lia].
      apply elem_of_seq in Hi. destruct (lookup_lt_is_Some_2 xs i) as [x Hx]; [lia|]. rewrite Hx in Hb. apply can_bind in Hb as (a & Ha & Hb).
      pose proof (delete_Permutation _ _ _ Hx) as Hp. assert (Hnd' : NoDup (x :: delete i xs)) by by rewrite <- Hp.
      apply list.NoDup_cons in Hnd' as [Hx1 Hx2].
      apply IH in Ha as (l & -> & H1 & H2 & H3); [|done|rewrite length_delete by eauto; lia]. cbn in Hb. subst o. exists (x :: l).
      split_and!; [done| |cbn; lia|].
      * apply list.NoDup_cons. split; [|done]. intros H. apply Hx1. by apply H3.
      * intros y Hy. rewrite Hp. apply elem_of_cons in Hy as [-> | Hy]; [left|]. right. by apply H3.
    + intros (l & -> & H1 & H2 & H3). destruct l as [|x l]; [done|]. apply list.NoDup_cons in H1 as [H0 H1].
      assert (Hx : x ∈ xs) by (apply H3; left). apply elem_of_list_lookup in Hx as [i Hx]. apply lookup_lt_Some in Hx as Hlt.
      pose proof (delete_Permutation _ _ _ Hx) as Hp. assert (Hnd' : NoDup (x :: delete i xs)) by by rewrite <- Hp.
      apply list.NoDup_cons in Hnd' as [Hx1 Hx2].
      exists (Ok i). split. { apply can_uniform; [intros E; apply (f_equal length) in E; rewrite seq_length in E; cbn in E; lia|]. exists i. split; [apply elem_of_seq; lia|done]. }
      rewrite Hx. apply can_bind. exists (Ok l). split; [|done]. apply IH; [done|rewrite length_delete by eauto; lia|].
      exists l. split_and!; [done|done|cbn in H2; lia|]. intros y Hy. assert (Hy' : y ∈ xs) by (apply H3; by right). rewrite Hp in Hy'.
      apply elem_of_cons in Hy' as [-> | Hy']; [done|done].
Qed.

Lemma can_random_sample {A} (xs : list A) k o : NoDup xs -> 0 <= k <= zlen xs ->
  (can (random_sample xs k) o <-> exists l, o = Ok l /\ NoDup l /\ zlen l = k /\ forall x, x ∈ l -> x ∈ xs).
Proof.
  intros Hnd Hk. unfold random_sample. destruct (Z.ltb_spec k 0); [lia|]. destruct (Z.ltb_spec (zlen xs) k); [lia|]. cbn [orb].
  rewrite can_sample; [|done|unfold zlen in *; lia]. unfold zlen. split; intros (l & H1 & H2 & H3 & H4); exists l; split_and!; try done; lia.
Qed.

Lemma ones_pos (n : Z) : 0 < n -> (0 < qsum (map (fun _ : Z => Qc_of_Z 1) (py_range n)))%Qc.
Proof.
  intros Hn. rewrite (qsum_Z (fun _ : Z => 1)). apply Qc_of_Z_pos. unfold py_range.
  rewrite seqZ_cons by lia. cbn [map zsum foldr]. assert (0 <= zsum (map (fun _ : Z => 1) (seqZ (Z.succ 0) (Z.pred n)))); [|unfold zsum in *; cbn in *; lia].
  induction (seqZ (Z.succ 0) (Z.pred n)) as [|x l IH]; [done|]. cbn [map zsum foldr] in *. unfold zsum in *. cbn in *. lia.
Qed.

Lemma Qc_one_nonneg : (0 <= Qc_of_Z 1)%Qc.
Proof. by apply Qc_of_Z_nonneg. Qed.
Lemma Qc_one_neq : Qc_of_Z 1 <> 0%Qc.
Proof. intros H. apply Qc_of_Z_inj_0 in H. done. Qed.

Lemma can_choices_many py39 n k : forall o, 0 < n ->
  (can (choices_many py39 k (py_range n) (map (fun _ => Qc_of_Z 1) (py_range n))) o
   <-> exists l, o = Ok l /\ length l = k /\ forall x, x ∈ l -> 0 <= x < n).
Proof.
  induction k as [|k IH]; intros o Hn; cbn [choices_many].
  - cbn. split; [intros ->; exists []; split_and!; [done|done|]; intros x Hx; by apply elem_of_nil in Hx|]. intros (l & -> & Hl & _). by destruct l.
  - rewrite can_bind. split.
    + intros (a & Ha & Hb). apply rc_can in Ha as (x & Hx & _ & ->); [|intros; apply Qc_one_nonneg|by apply ones_pos].
      apply can_bind in Hb as (a & Ha & Hb). apply IH in Ha as (l & -> & H1 & H2); [|done]. cbn in Hb. subst o. exists (x :: l).
      split_and!; [done|cbn; lia|]. intros y Hy. apply elem_of_cons in Hy as [-> | Hy]; [|by apply H2]. apply elem_of_seqZ in Hx. lia.
    + intros (l & -> & H1 & H2). destruct l as [|x l]; [done|]. exists (Ok x). split.
      * apply rc_can; [intros; apply Qc_one_nonneg|by apply ones_pos|]. exists x. split_and!; [|apply Qc_one_neq|done].
        apply elem_of_seqZ. specialize (H2 x). assert (x ∈ x :: l) by left. apply H2 in H. lia.
      * apply can_bind. exists (Ok l). split; [|done]. apply IH; [done|]. exists l. split_and!; [done|cbn in H1; lia|]. intros y Hy. apply H2. by right.
Qed.

(** ** The sides of the diverse rules *)
Lemma size_weights_pos n : 3 <= n -> (0 < qsum (map (fun x => 1 / Qc_of_Z x)%Qc (seqZ 2 (n - 2))))%Qc.
Proof.
  intros Hn. rewrite seqZ_cons by lia. cbn [map qsum foldr].
  assert (Hp : forall x, 2 <= x -> (0 < 1 / Qc_of_Z x)%Qc) by (intros x Hx; apply Qcdiv_pos; [done|apply Qc_of_Z_pos; lia]).
  assert (H0 : (0 <= qsum (map (fun x => 1 / Qc_of_Z x)%Qc (seqZ (Z.succ 2) (Z.pred (n - 2)))))%Qc).
  { assert (Hin : forall x, x ∈ seqZ (Z.succ 2) (Z.pred (n - 2)) -> 2 <= x) by (intros x Hx; apply elem_of_seqZ in Hx; lia).
    induction (seqZ (Z.succ 2) (Z.pred (n - 2))) as [|x l IH]; [apply Qcle_refl|]. cbn [map qsum foldr].
    replace 0%Qc with (0 + 0)%Qc by ring. apply Qcplus_le_compat; [apply Qclt_le_weak, Hp, Hin; left|]. apply IH. intros y Hy. apply Hin. by right. }
  eapply Qclt_le_trans; [by apply (Hp 2)|]. rewrite <- (Qcplus_0_r (1 / Qc_of_Z 2)) at 1. apply Qcplus_le_compat; [apply Qcle_refl|exact H0].
Qed.

Lemma can_size py39 n o : 3 <= n -> (can (diverse_size py39 n) o <-> exists s, o = Ok s /\ 2 <= s < n).
Proof.
  intros Hn. unfold diverse_size.
  assert (Hp : forall x, 2 <= x -> (0 < 1 / Qc_of_Z x)%Qc) by (intros x Hx; apply Qcdiv_pos; [done|apply Qc_of_Z_pos; lia]).
  rewrite (rc_can py39 (fun x => 1 / Qc_of_Z x)%Qc).
  - split.
    + intros (x & Hx & _ & ->). exists x. apply elem_of_seqZ in Hx. split; [done|lia].
    + intros (x & -> & Hx). exists x. split_and!; [apply elem_of_seqZ; lia| |done]. intros E. assert (H := Hp x ltac:(lia)). rewrite E in H. by apply (irreflexivity Qclt _ H).
  - intros x Hx. apply elem_of_seqZ in Hx. apply Qclt_le_weak, Hp. lia.
  - by apply size_weights_pos.
Qed.

Lemma size_err py39 n : n <= 2 -> diverse_size py39 n = Fail IndexError.
Proof. intros Hn. unfold diverse_size. rewrite seqZ_nil by lia. done. Qed.

Lemma size_py_set_le (l : list Z) : (size (py_set l) <= length l)%nat.
Proof.
  induction l as [|x l IH]; [done|]. unfold py_set in *. cbn. pose proof (size_union_alt {[x]} (list_to_set l : gset Z)).
  rewrite H. rewrite size_singleton. assert (size ((list_to_set l : gset Z) ∖ {[x]}) <= size (list_to_set l : gset Z))%nat; [|lia].
  apply subseteq_size. clear. set_solver.
Qed.

Lemma can_side py39 ord n sz o : set_order ord -> 3 <= n -> 2 <= sz < n ->
  can (diverse_side py39 ord n sz (map (fun _ => Qc_of_Z 1) (py_range n))) o -> exists s, o = Ok s /\ proper_side ord n s.
Proof.
  intros Hord Hn Hsz H. unfold diverse_side in H. apply can_bind in H as (a & Ha & Hb). apply can_choices_many in Ha as (l & -> & H1 & H2); [|lia].
  cbn in Hb. subst o. eexists. split; [done|]. exists (py_set l). split_and!; [done| | |].
  - intros x Hx. apply H2. by apply elem_of_list_to_set in Hx.
  - destruct l as [|x l]; [cbn in H1; lia|]. destruct (size (py_set (x :: l))) eqn:E; [|lia]. apply size_empty_inv in E.
    assert (Hx : x ∈ py_set (x :: l)) by (apply elem_of_list_to_set; left). by apply E in Hx; apply not_elem_of_empty in Hx.
  - pose proof (size_py_set_le l). lia.
Qed.

Lemma side_can py39 ord n s : set_order ord -> 3 <= n -> proper_side ord n s ->
  exists sz, 2 <= sz < n /\ can (diverse_side py39 ord n sz (map (fun _ => Qc_of_Z 1) (py_range n))) (Ok s).
Proof.
  intros Hord Hn (S & -> & HS & H1 & H2).
  assert (Hlen : length (elements S) = size S) by done.
  destruct (decide (size S = 1%nat)) as [E1|E1].
  - destruct (elements S) as [|x l] eqn:E; [rewrite <- Hlen in E1; done|]. destruct l as [|y l]; [|cbn in Hlen; lia].
    exists 2. split; [lia|]. unfold diverse_side. apply can_bind. exists (Ok [x; x]). split.
    + apply can_choices_many; [lia|]. exists [x; x]. split_and!; [done|done|]. intros y Hy. apply HS. apply elem_of_elements. rewrite E.
      clear -Hy. set_solver.
    + cbn [can]. do 2 f_equal. apply set_eq. intros y. rewrite <- elem_of_elements, E. unfold py_set. rewrite elem_of_list_to_set. clear. set_solver.
  - exists (Z.of_nat (size S)). split; [lia|]. unfold diverse_side. apply can_bind. exists (Ok (elements S)). split.
    + apply can_choices_many; [lia|]. exists (elements S). split_and!; [done|lia|]. intros y Hy. apply HS. by apply elem_of_elements.
    + cbn [can]. do 2 f_equal. unfold py_set. symmetry. apply list_to_set_elements_L.
Qed.

Lemma proper_range ord n s : set_order ord -> proper_side ord n s -> Forall (fun x => 0 <= x < n) s.
Proof. intros Hord (S & -> & HS & _). apply list.Forall_forall. intros x Hx. apply HS. by apply (ord_elem ord). Qed.

Lemma proper_exists ord n : 3 <= n -> proper_side ord n (ord {[0]}).
Proof. intros Hn. exists {[0]}. split_and!; [done| |rewrite size_singleton; lia|rewrite size_singleton; lia]. intros x Hx. apply elem_of_singleton in Hx. lia. Qed.

Lemma halve_ok drawn : forall ws, Forall (fun x => 0 <= x < zlen ws) drawn -> exists ws', halve ws drawn = Ok ws'.
Proof.
  unfold halve. induction drawn as [|a drawn IH]; intros ws H; [by exists ws|]. apply list.Forall_cons in H as [Ha H]. cbn [rfold].
  destruct (py_index_in_range ws a Ha) as (w & -> & _). cbn [rbind]. rewrite py_setitem_ok by done. cbn [rbind]. apply IH.
  eapply list.Forall_impl; [exact H|]. intros x Hx. cbn beta in *. unfold zlen in *. by rewrite insert_length.
Qed.

(** ** The loop of the diverse generator *)
Definition step_post (n d l : Z) (f g : Z -> Z -> Z) (s : dstate) (h t cov : list Z) (s' : dstate) : Prop :=
  ds_rules s' = ds_rules s ++ [(h, t)] /\
  ds_examples s' = List.filter (fun i => negb (bool_decide (i ∈ cov))) (ds_examples s) /\
  ds_FL s' = (mat n d (paint1 h cov f), mat n l (paint1 t cov g)).

Definition step_args (ord : gset Z -> list Z) (d l b : Z) (examples h t cov : list Z) : Prop :=
  proper_side ord d h /\ proper_side ord l t /\ zlen cov < b /\ NoDup cov /\ forall i, i ∈ cov -> i ∈ examples.

Section DiverseLoop.
Context (py39 : bool) (ord : gset Z -> list Z) (Hord : set_order ord) (n d l k : Z) (Hd : 3 <= d) (Hl : 3 <= l).

Lemma step_can s f g o : 1 <= int_quot n k -> NoDup (ds_examples s) -> Forall (fun i => 0 <= i < n) (ds_examples s) ->
  int_quot n k - 1 <= zlen (ds_examples s) -> ds_FL s = (mat n d f, mat n l g) ->
  can (diverse_step py39 ord n d l k s) o ->
  exists s' h t cov, o = Ok s' /\ step_args ord d l (int_quot n k) (ds_examples s) h t cov /\ step_post n d l f g s h t cov s'.
Proof.
  intros Hb Hnd Hr Hlen HFL H. unfold diverse_step in H.
  apply can_bind in H as (a & Ha & H). apply can_size in Ha as (sh & -> & Hsh); [|done].
  apply can_bind in H as (a & Ha & H). apply can_size in Ha as (st & -> & Hst); [|done].
  apply can_bind in H as (a & Ha & H). apply can_side in Ha as (h & -> & Hh); [|done..].
  apply can_bind in H as (a & Ha & H). apply can_side in Ha as (t & -> & Ht); [|done..].
  pose proof (proper_range _ _ _ Hord Hh) as Rh. pose proof (proper_range _ _ _ Hord Ht) as Rt.
  destruct (halve_ok h (map (fun _ => Qc_of_Z 1) (py_range d))) as (aw & Eaw). { unfold py_range. rewrite zlen_map, zlen_seqZ by lia. done. }
  destruct (halve_ok t (map (fun _ => Qc_of_Z 1) (py_range l))) as (lw & Elw). { unfold py_range. rewrite zlen_map, zlen_seqZ by lia. done. }
  rewrite Eaw, Elw in H. cbn [lift bind] in H.
  apply can_bind in H as (a & Ha & H). apply can_rand_int in Ha. destruct (Z.leb_spec (int_quot n k) 0); [lia|]. destruct Ha as (m & -> & Hm).
  apply can_bind in H as (a & Ha & H). apply can_random_sample in Ha as (cov & -> & Hc1 & Hc2 & Hc3); [|done|lia].
  rewrite HFL in H. rewrite cover_ok in H; [|apply list.Forall_forall; intros i Hi; by eapply (proj1 (list.Forall_forall _ _)) in Hr; [exact Hr|apply Hc3]|done|done].
  cbn [lift bind can] in H. subst o. do 4 eexists. split; [done|]. split; [split_and!; try done; lia|]. by split_and!.
Qed.

Lemma can_step s f g h t cov : NoDup (ds_examples s) -> Forall (fun i => 0 <= i < n) (ds_examples s) ->
  int_quot n k - 1 <= zlen (ds_examples s) -> ds_FL s = (mat n d f, mat n l g) ->
  step_args ord d l (int_quot n k) (ds_examples s) h t cov ->
  exists s', can (diverse_step py39 ord n d l k s) (Ok s') /\ step_post n d l f g s h t cov s'.
Proof.
  intros Hnd Hr Hlen HFL (Hh & Ht & Hc0 & Hc1 & Hc3). unfold diverse_step.
  pose proof (proper_range _ _ _ Hord Hh) as Rh. pose proof (proper_range _ _ _ Hord Ht) as Rt.
  destruct (halve_ok h (map (fun _ => Qc_of_Z 1) (py_range d))) as (aw & Eaw). { unfold py_range. rewrite zlen_map, zlen_seqZ by lia. done. }
  destruct (halve_ok t (map (fun _ => Qc_of_Z 1) (py_range l))) as (lw & Elw). { unfold py_range. rewrite zlen_map, zlen_seqZ by lia. done. }
  destruct (side_can py39 ord d h Hord Hd Hh) as (sh & Hsh & Ch). destruct (side_can py39 ord l t Hord Hl Ht) as (st & Hst & Ct).
  pose proof (zlen_nonneg cov).
  exists (DState aw lw (ds_rules s ++ [(h, t)]) (List.filter (fun i => negb (bool_decide (i ∈ cov))) (ds_examples s)) (mat n d (paint1 h cov f), mat n l (paint1 t cov g))).
  split; [|by split_and!].
  apply can_bind. exists (Ok sh). split; [apply can_size; [done|]; by exists sh|].
  apply can_bind. exists (Ok st). split; [apply can_size; [done|]; by exists st|].
  apply can_bind. exists (Ok h). split; [done|].
  apply can_bind. exists (Ok t). split; [done|].
  rewrite Eaw, Elw. cbn [lift bind].
  apply can_bind. exists (Ok (zlen cov)). split. { apply can_rand_int. destruct (Z.leb_spec (int_quot n k) 0); [lia|]. exists (zlen cov). split; [done|lia]. }
  apply can_bind. exists (Ok cov). split. { apply can_random_sample; [done|lia|]. exists cov. by split_and!. }
  rewrite HFL. rewrite cover_ok; [done| |done|done]. apply list.Forall_forall. intros i Hi. by eapply (proj1 (list.Forall_forall _ _)) in Hr; [exact Hr|apply Hc3].
Qed.

Lemma elem_of_rest (ex cov : list Z) i : i ∈ List.filter (fun i => negb (bool_decide (i ∈ cov))) ex <-> i ∈ ex /\ i ∉ cov.
Proof.
  rewrite elem_of_list_In, filter_In, <- elem_of_list_In. destruct (decide (i ∈ cov)) as [H|H].
  - rewrite (bool_decide_eq_true_2 _ H). cbn. naive_solver.
  - rewrite (bool_decide_eq_false_2 _ H). cbn. naive_solver.
Qed.

Lemma rest_NoDup (ex cov : list Z) : NoDup ex -> NoDup (List.filter (fun i => negb (bool_decide (i ∈ cov))) ex).
Proof. intros H. apply NoDup_ListNoDup. apply List.NoDup_filter. by apply NoDup_ListNoDup. Qed.

Lemma rest_zlen (ex cov : list Z) : NoDup ex -> zlen ex <= zlen (List.filter (fun i => negb (bool_decide (i ∈ cov))) ex) + zlen cov.
Proof.
  intros H. rewrite <- zlen_app. unfold zlen. apply inj_le. apply submseteq_length. apply NoDup_submseteq; [done|]. intros i Hi.
  apply elem_of_app. destruct (decide (i ∈ cov)); [by right|]. left. by apply elem_of_rest.
Qed.

Lemma rest_range (ex cov : list Z) : Forall (fun i => 0 <= i < n) ex -> Forall (fun i => 0 <= i < n) (List.filter (fun i => negb (bool_decide (i ∈ cov))) ex).
Proof. intros H. apply list.Forall_forall. intros i Hi. apply elem_of_rest in Hi as [Hi _]. by eapply (proj1 (list.Forall_forall _ _)) in H. Qed.

Definition loop_args (b : Z) (count : nat) (examples : list Z) (rules : list (list Z * list Z)) (covers : list (list Z)) : Prop :=
  length rules = count /\ length covers = count /\
  Forall (fun r => proper_side ord d (fst r) /\ proper_side ord l (snd r)) rules /\
  Forall (fun c => zlen c < b /\ NoDup c) covers /\ NoDup (concat covers) /\ forall i, i ∈ concat covers -> i ∈ examples.
Definition loop_post (f g : Z -> Z -> Z) (s : dstate) (rules : list (list Z * list Z)) (covers : list (list Z)) (s' : dstate) : Prop :=
  ds_rules s' = ds_rules s ++ rules /\
  ds_FL s' = (mat n d (paint (map fst rules) covers f), mat n l (paint (map snd rules) covers g)).

Lemma loop_can count : forall s f g o, 1 <= int_quot n k -> NoDup (ds_examples s) -> Forall (fun i => 0 <= i < n) (ds_examples s) ->
  Z.of_nat count * (int_quot n k - 1) <= zlen (ds_examples s) -> ds_FL s = (mat n d f, mat n l g) ->
  can (diverse_loop py39 ord n d l k count s) o ->
  exists s' rules covers, o = Ok s' /\ loop_args (int_quot n k) count (ds_examples s) rules covers /\ loop_post f g s rules covers s'.
Proof.
  induction count as [|count IH]; intros s f g o Hb Hnd Hr Hlen HFL H; cbn [diverse_loop] in H.
  - cbn in H. subst o. exists s, [], []. split; [done|]. split; [split_and!; [done|done|constructor|constructor|constructor|]; intros i Hi; by apply elem_of_nil in Hi|].
    split; [by rewrite app_nil_r|done].
  - apply can_bind in H as (a & Ha & H). apply (step_can s f g) in Ha as (s1 & h & t & cov & -> & (A1 & A2 & A3 & A4 & A5) & P1 & P2 & P3); [|done|done|done|nia|done].
    pose proof (rest_zlen (ds_examples s) cov Hnd) as Hz.
    apply (IH s1 (paint1 h cov f) (paint1 t cov g)) in H as (s' & rules & covers & -> & (B1 & B2 & B3 & B4 & B5 & B6) & Q1 & Q2); [|done|rewrite P2; by apply rest_NoDup|rewrite P2; by apply rest_range|rewrite P2; nia|done].
    rewrite P2 in B6. exists s', ((h, t) :: rules), (cov :: covers). split; [done|]. split.
    + split_and!; [cbn; lia|cbn; lia|by constructor|by constructor| |].
      * cbn. apply NoDup_app. split_and!; [done| |done]. intros i Hi Hi'. apply B6, elem_of_rest in Hi' as [_ Hi']. done.
      * cbn. intros i Hi. apply elem_of_app in Hi as [Hi|Hi]; [by apply A5|]. apply B6, elem_of_rest in Hi. by destruct Hi.
    + split; [rewrite Q1, P1, <- app_assoc; done|]. rewrite Q2. done.
Qed.

Lemma can_loop count : forall s f g rules covers, NoDup (ds_examples s) -> Forall (fun i => 0 <= i < n) (ds_examples s) ->
  Z.of_nat count * (int_quot n k - 1) <= zlen (ds_examples s) -> 1 <= int_quot n k -> ds_FL s = (mat n d f, mat n l g) ->
  loop_args (int_quot n k) count (ds_examples s) rules covers ->
  exists s', can (diverse_loop py39 ord n d l k count s) (Ok s') /\ loop_post f g s rules covers s'.
Proof.
  induction count as [|count IH]; intros s f g rules covers Hnd Hr Hlen Hb HFL (B1 & B2 & B3 & B4 & B5 & B6); cbn [diverse_loop].
  - destruct rules; [|done]. exists s. split; [done|]. split; [by rewrite app_nil_r|done].
  - destruct rules as [|[h t] rules]; [done|]. destruct covers as [|cov covers]; [done|]. cbn in B5. apply NoDup_app in B5 as (C1 & C2 & C3).
    apply list.Forall_cons in B3 as [[D1 D2] B3]. apply list.Forall_cons in B4 as [[D3 D4] B4]. cbn [fst snd] in *. pose proof (zlen_nonneg cov).
    destruct (can_step s f g h t cov Hnd Hr ltac:(nia) HFL) as (s1 & E1 & P1 & P2 & P3).
    { split_and!; try done. intros i Hi. apply B6. cbn. apply elem_of_app. by left. }
    pose proof (rest_zlen (ds_examples s) cov Hnd) as Hz.
    destruct (IH s1 (paint1 h cov f) (paint1 t cov g) rules covers) as (s' & E2 & Q1 & Q2);
      [rewrite P2; by apply rest_NoDup|rewrite P2; by apply rest_range|rewrite P2; nia|done|done| |].
    { split_and!; [cbn in B1; lia|cbn in B2; lia|done|done|done|]. intros i Hi. rewrite P2. apply elem_of_rest. split; [apply B6; cbn; apply elem_of_app; by right|].
      intros Hi'. by apply (C2 i). }
    exists s'. split; [apply can_bind; exists (Ok s1); by split|]. split; [rewrite Q1, P1, <- app_assoc; done|]. rewrite Q2. done.
Qed.

Lemma loop_err count s o : (0 < count)%nat -> int_quot n k <= 0 ->
  (can (diverse_loop py39 ord n d l k count s) o <-> o = Err ValueError).
Proof.
  intros Hc Hb. destruct count as [|count]; [lia|]. cbn [diverse_loop]. unfold diverse_step.
  assert (Herr : forall o, can (rand_int 0 (int_quot n k)) o <-> o = Err ValueError). { intros o'. rewrite can_rand_int. destruct (Z.leb_spec (int_quot n k) 0); [done|lia]. }
  split.
  - intros H. apply can_bind in H as (a & Ha & H).
    apply can_bind in Ha as (x & Hx & Ha). apply can_size in Hx as (sh & -> & Hsh); [|done].
    apply can_bind in Ha as (x & Hx & Ha). apply can_size in Hx as (st & -> & Hst); [|done].
    apply can_bind in Ha as (x & Hx & Ha). apply can_side in Hx as (h & -> & Hh); [|done..].
    apply can_bind in Ha as (x & Hx & Ha). apply can_side in Hx as (t & -> & Ht); [|done..].
    pose proof (proper_range _ _ _ Hord Hh) as Rh. pose proof (proper_range _ _ _ Hord Ht) as Rt.
    destruct (halve_ok h (map (fun _ => Qc_of_Z 1) (py_range d))) as (aw & Eaw). { unfold py_range. rewrite zlen_map, zlen_seqZ by lia. done. }
    destruct (halve_ok t (map (fun _ => Qc_of_Z 1) (py_range l))) as (lw & Elw). { unfold py_range. rewrite zlen_map, zlen_seqZ by lia. done. }
    rewrite Eaw, Elw in Ha. cbn [lift bind] in Ha.
    apply can_bind in Ha as (x & Hx & Ha). apply Herr in Hx as ->. by subst a.
  - intros ->. pose proof (proper_exists ord d Hd) as Hh. pose proof (proper_exists ord l Hl) as Ht.
    pose proof (proper_range _ _ _ Hord Hh) as Rh. pose proof (proper_range _ _ _ Hord Ht) as Rt.
    destruct (halve_ok (ord {[0]}) (map (fun _ => Qc_of_Z 1) (py_range d))) as (aw & Eaw). { unfold py_range. rewrite zlen_map, zlen_seqZ by lia. done. }
    destruct (halve_ok (ord {[0]}) (map (fun _ => Qc_of_Z 1) (py_range l))) as (lw & Elw). { unfold py_range. rewrite zlen_map, zlen_seqZ by lia. done. }
    destruct (side_can py39 ord d _ Hord Hd Hh) as (sh & Hsh & Ch). destruct (side_can py39 ord l _ Hord Hl Ht) as (st & Hst & Ct).
    apply can_bind. exists (Err ValueError). split; [|done].
    apply can_bind. exists (Ok sh). split; [apply can_size; [done|]; by exists sh|].
    apply can_bind. exists (Ok st). split; [apply can_size; [done|]; by exists st|].
    apply can_bind. eexists (Ok _). split; [exact Ch|].
    apply can_bind. eexists (Ok _). split; [exact Ct|].
    rewrite Eaw, Elw. cbn [lift bind]. apply can_bind. exists (Err ValueError). split; [by apply Herr|done].
Qed.
End DiverseLoop.

(** ** Numbers *)
Lemma to_nat_nonpos (z : Z) : z <= 0 -> Z.to_nat z = 0%nat.
Proof. lia. Qed.
Lemma py_int_floor (q : Qc) : (0 <= q)%Qc -> py_int q = Qfloor (this q).
Proof.
  intros Hq. unfold py_int. destruct q as [[a b] Hc]. change (0 * Z.pos b <= a * 1) in Hq. cbn [this Qnum Qden Qfloor]. apply Z.quot_div_nonneg; lia.
Qed.
Lemma py_int_neg (q : Qc) : (q < 0)%Qc -> py_int q <= 0 /\ Qfloor (this q) < 0.
Proof.
  intros Hq. unfold py_int. destruct q as [[a b] Hc]. change (a * 1 < 0 * Z.pos b) in Hq. cbn [this Qnum Qden Qfloor]. split.
  - assert (0 <= (- a) ÷ Z.pos b) by (apply Z.quot_pos; lia). rewrite Z.quot_opp_l in H by lia. lia.
  - apply Z.div_lt_upper_bound; lia.
Qed.

Lemma Qc_le_div (z n k : Z) : 0 < k -> (Qc_of_Z z <= Qc_of_Z n / Qc_of_Z k)%Qc <-> z * k <= n.
Proof.
  intros Hk. assert (Hp : (0 < Qc_of_Z k)%Qc) by by apply Qc_of_Z_pos. assert (Hne : Qc_of_Z k <> 0%Qc) by (intros E; rewrite E in Hp; by apply (irreflexivity Qclt _ Hp)).
  rewrite (Z2Qc_inj_le (z * k) n). rewrite Qc_of_Z_mult. split; intros H.
  - apply (Qcmult_le_compat_r _ _ (Qc_of_Z k)) in H; [|by apply Qclt_le_weak]. replace (Qc_of_Z n / Qc_of_Z k * Qc_of_Z k)%Qc with (Qc_of_Z n) in H by (field; done). done.
  - apply (Qcmult_le_compat_r _ _ (/ Qc_of_Z k)) in H; [|by apply Qclt_le_weak, Qcinv_pos]. replace (Qc_of_Z z * Qc_of_Z k * / Qc_of_Z k)%Qc with (Qc_of_Z z) in H by (field; done). done.
Qed.

Lemma floor_div (n k : Z) : 0 < k -> Qfloor (this (Qc_of_Z n / Qc_of_Z k)%Qc) = n / k.
Proof.
  intros Hk. symmetry. apply floor_bounds. split; [apply Qc_le_div; [done|]; rewrite Z.mul_comm; by apply Z.mul_div_le|].
  apply Qcnot_le_lt. intros H. apply (proj1 (Qc_le_div _ _ _ Hk)) in H. pose proof (Z.mul_succ_div_gt n k Hk) as H'. rewrite Z.mul_comm in H'. exact (Z.lt_irrefl _ (Z.lt_le_trans _ _ _ H' H)).
Qed.

Lemma int_quot_eq n k : 0 <= n -> 0 < k -> int_quot n k = n / k.
Proof. intros Hn Hk. unfold int_quot. rewrite py_int_floor; [by apply floor_div|]. apply Qcdiv_nonneg; [by apply Qc_of_Z_nonneg|by apply Qc_of_Z_pos]. Qed.

Lemma int_frac_eq n a b : 0 <= n -> 0 <= a -> 0 < b -> int_frac n (Qc_of_Z a / Qc_of_Z b)%Qc = a * n / b.
Proof.
  intros Hn Ha Hb. unfold int_frac. replace (Qc_of_Z n * (Qc_of_Z a / Qc_of_Z b))%Qc with (Qc_of_Z (a * n) / Qc_of_Z b)%Qc.
  - rewrite py_int_floor; [by apply floor_div|]. apply Qcdiv_nonneg; [apply Qc_of_Z_nonneg; lia|by apply Qc_of_Z_pos].
  - rewrite Qc_of_Z_mult. unfold Qcdiv. ring.
Qed.
Lemma int_frac_4 n : 0 <= n -> int_frac n (Q2Qc (4 # 10)) = 2 * n / 5.
Proof. intros Hn. replace (Q2Qc (4 # 10)) with (Qc_of_Z 2 / Qc_of_Z 5)%Qc by by apply Qc_is_canon. by apply int_frac_eq. Qed.
Lemma int_frac_3 n : 0 <= n -> int_frac n (Q2Qc (3 # 10)) = 3 * n / 10.
Proof. intros Hn. replace (Q2Qc (3 # 10)) with (Qc_of_Z 3 / Qc_of_Z 10)%Qc by by apply Qc_is_canon. by apply int_frac_eq. Qed.

Lemma n_swaps_eq n d noise : Z.to_nat (n_swaps n d noise) = Z.to_nat (swap_count n d noise).
Proof.
  unfold n_swaps, swap_count. destruct (Qclt_le_dec (Qc_of_Z (n * d) * noise)%Qc 0) as [H|H].
  - apply py_int_neg in H. lia.
  - rewrite py_int_floor by done. lia.
Qed.

Lemma swap_count_0 n d noise : n * d = 0 -> swap_count n d noise = 0.
Proof. intros H. unfold swap_count. rewrite H, Z2Qc_inj_0. replace (0 * noise)%Qc with 0%Qc by ring. done. Qed.

(** ** Noise *)
Definition swap1 (c : Z * Z) (f : Z -> Z -> Z) (a b : Z) : Z := if decide (a = fst c /\ b = snd c) then 1 - f a b else f a b.

Lemma flipped_cons c flips f a b : flipped (c :: flips) f a b = flipped flips (swap1 c f) a b.
Proof.
  unfold flipped, swap1. destruct c as [i j]. cbn [fst snd]. rewrite filter_cons. destruct (decide ((i, j) = (a, b))) as [[= -> ->]|Hn].
  - rewrite decide_True by done. cbn [length]. rewrite Nat.odd_succ, <- Nat.negb_odd. destruct (Nat.odd _); cbn; lia.
  - rewrite (decide_False (P := a = i /\ b = j)); [done|]. intros [-> ->]. done.
Qed.

Lemma can_swaps rows cols k : forall f o, (k = 0%nat \/ 0 < rows /\ 0 < cols) ->
  (can (swap_cells k rows cols (mat rows cols f)) o <->
   exists flips, length flips = k /\ (forall i j, (i, j) ∈ flips -> 0 <= i < rows /\ 0 <= j < cols) /\ o = Ok (mat rows cols (flipped flips f))).
Proof.
  induction k as [|k IH]; intros f o Hk; cbn [swap_cells].
  - cbn. split.
    + intros ->. exists []. split_and!; [done| |done]. intros i j Hij. by apply elem_of_nil in Hij.
    + intros (flips & Hf & _ & ->). by destruct flips.
  - destruct Hk as [|[Hr Hc]]; [done|]. split.
    + intros H. apply can_bind in H as (a & Ha & H). apply can_rand_int in Ha. destruct (Z.leb_spec rows 0); [lia|]. destruct Ha as (i & -> & Hi).
      apply can_bind in H as (a & Ha & H). apply can_rand_int in Ha. destruct (Z.leb_spec cols 0); [lia|]. destruct Ha as (j & -> & Hj).
      rewrite mat_swap in H by done. cbn [lift bind] in H. apply IH in H as (flips & F1 & F2 & ->); [|by right].
      exists ((i, j) :: flips). split_and!; [cbn; lia| |].
      * intros i' j' H'. apply elem_of_cons in H' as [[= -> ->]|H']; [done|by apply F2].
      * f_equal. apply mat_ext. intros a b _ _. by rewrite flipped_cons.
    + intros (flips & F1 & F2 & ->). destruct flips as [|[i j] flips]; [done|]. destruct (F2 i j) as [Hi Hj]; [left|].
      apply can_bind. exists (Ok i). split. { apply can_rand_int. destruct (Z.leb_spec rows 0); [lia|]. by exists i. }
      apply can_bind. exists (Ok j). split. { apply can_rand_int. destruct (Z.leb_spec cols 0); [lia|]. by exists j. }
      rewrite mat_swap by done. cbn [lift bind]. apply IH; [by right|]. exists flips. split_and!; [cbn in F1; lia| |].
      * intros i' j' H'. apply F2. by right.
      * f_equal. apply mat_ext. intros a b _ _. by rewrite flipped_cons.
Qed.

Lemma can_noise1 n d noise f o : 0 <= n -> 0 <= d ->
  (can (swap_cells (Z.to_nat (n_swaps n d noise)) n d (mat n d f)) o <->
   exists flips, flips_of n d noise flips /\ o = Ok (mat n d (flipped flips f))).
Proof.
  intros Hn Hd. rewrite n_swaps_eq. rewrite can_swaps.
  - unfold flips_of, zlen. assert (0 <= swap_count n d noise) by (unfold swap_count; lia). split.
    + intros (flips & F1 & F2 & ->). exists flips. split_and!; [lia|done|done].
    + intros (flips & [F1 F2] & ->). exists flips. split_and!; [lia|done|done].
  - destruct (decide (n * d = 0)) as [E|E]; [left; by rewrite swap_count_0|right]. nia.
Qed.

Lemma can_add_noise n d l noise f g o : 0 <= n -> 0 <= d -> 0 <= l ->
  (can (add_noise n d l noise (mat n d f, mat n l g)) o <->
   exists ff fg, flips_of n d noise ff /\ flips_of n l noise fg /\ o = Ok (mat n d (flipped ff f), mat n l (flipped fg g))).
Proof.
  intros Hn Hd Hl. unfold add_noise. cbn [fst snd]. split.
  - intros H. apply can_bind in H as (a & Ha & H). apply can_noise1 in Ha as (ff & F1 & ->); [|done..].
    apply can_bind in H as (a & Ha & H). apply can_noise1 in Ha as (fg & F2 & ->); [|done..]. cbn in H. subst o. by exists ff, fg.
  - intros (ff & fg & F1 & F2 & ->). apply can_bind. eexists (Ok _). split; [apply can_noise1; [done..|]; by exists ff|].
    apply can_bind. eexists (Ok _). split; [apply can_noise1; [done..|]; by exists fg|]. done.
Qed.

Lemma flips_exist n d noise : 0 <= n -> 0 <= d -> exists flips, flips_of n d noise flips.
Proof.
  intros Hn Hd. exists (replicate (Z.to_nat (swap_count n d noise)) (0, 0)). split.
  - unfold zlen. rewrite replicate_length. unfold swap_count. lia.
  - intros i j H. apply elem_of_replicate in H as [[= -> ->] H]. destruct (decide (n * d = 0)) as [E|E]; [rewrite swap_count_0 in H by done; done|]. nia.
Qed.

Lemma flipped_ext flips f g a b : f a b = g a b -> flipped flips f a b = flipped flips g a b.
Proof. intros E. unfold flipped. by rewrite E. Qed.

(** ** The test set *)
Lemma can_test remove n d l n_test k rules : forall examples f g o, 1 <= int_quot n_test k ->
  Forall (fun r => Forall (fun j => 0 <= j < d) (fst r) /\ Forall (fun j => 0 <= j < l) (snd r)) rules ->
  NoDup examples -> Forall (fun i => 0 <= i < n) examples ->
  (if remove : bool then zlen rules * (int_quot n_test k - 1) <= zlen examples else int_quot n_test k - 1 <= zlen examples) ->
  (can (test_loop remove n_test k rules examples (mat n d f, mat n l g)) o <->
   exists covers, length covers = length rules /\ Forall (fun c => zlen c < int_quot n_test k /\ NoDup c /\ Forall (fun i => i ∈ examples) c) covers /\
     (remove = true -> NoDup (concat covers)) /\ o = Ok (mat n d (paint (map fst rules) covers f), mat n l (paint (map snd rules) covers g))).
Proof.
  induction rules as [|[h t] rules IH]; intros examples f g o Hb Hs Hnd Hr Hlen; cbn [test_loop].
  - cbn [can]. split.
    + intros ->. exists []. split_and!; [done|constructor|constructor|done].
    + intros (covers & Hc & _ & _ & ->). by destruct covers.
  - apply list.Forall_cons in Hs as [[Hh Ht] Hs]. cbn [fst snd] in *.
    assert (Hlen1 : int_quot n_test k - 1 <= zlen examples). { destruct remove; [|done]. rewrite zlen_cons in Hlen. pose proof (zlen_nonneg rules). nia. }
    assert (Hin : forall cov : list Z, (forall i, i ∈ cov -> i ∈ examples) -> Forall (fun i => 0 <= i < n) cov).
    { intros cov Hc. apply list.Forall_forall. intros i Hi. apply Hc in Hi. by eapply (proj1 (list.Forall_forall _ _)) in Hr. }
    set (rest (cov : list Z) := if remove then List.filter (fun i => negb (bool_decide (i ∈ cov))) examples else examples).
    assert (Hrest : forall cov : list Z, (forall i, i ∈ cov -> i ∈ examples) -> zlen cov < int_quot n_test k ->
      NoDup (rest cov) /\ Forall (fun i => 0 <= i < n) (rest cov) /\
      (if remove then zlen rules * (int_quot n_test k - 1) <= zlen (rest cov) else int_quot n_test k - 1 <= zlen (rest cov))).
    { intros cov Hc Hz. unfold rest. destruct remove; [|done]. pose proof (rest_zlen examples cov Hnd). rewrite zlen_cons in Hlen.
      split_and!; [by apply rest_NoDup|by apply rest_range|]. lia. }
    split.
    + intros H. apply can_bind in H as (a & Ha & H). apply can_rand_int in Ha. destruct (Z.leb_spec (int_quot n_test k) 0); [lia|]. destruct Ha as (m & -> & Hm).
      apply can_bind in H as (a & Ha & H). apply can_random_sample in Ha as (cov & -> & Hc1 & Hc2 & Hc3); [|done|lia].
      rewrite cover_ok in H; [|by apply Hin|done|done]. cbn [lift bind] in H.
      destruct (Hrest cov Hc3 ltac:(lia)) as (R1 & R2 & R3). apply IH in H as (covers & C1 & C2 & C3 & ->); [|done..].
      exists (cov :: covers). split_and!; [cbn; lia| | |done].
      * constructor; [split_and!; [lia|done|by apply list.Forall_forall]|]. eapply list.Forall_impl; [exact C2|]. intros c (H1 & H2 & H3). split_and!; [done|done|].
        eapply list.Forall_impl; [exact H3|]. intros i Hi. unfold rest in Hi. destruct remove; [|done]. by apply elem_of_rest in Hi as [Hi _].
      * intros Hrm. cbn. apply NoDup_app. split_and!; [done| |by apply C3]. intros i Hi Hi'. apply elem_of_list_In, in_concat in Hi' as (c & Hcc & Hic).
        apply elem_of_list_In in Hcc, Hic. eapply (proj1 (list.Forall_forall _ _)) in C2; [|exact Hcc]. destruct C2 as (_ & _ & C2).
        eapply (proj1 (list.Forall_forall _ _)) in C2; [|exact Hic]. unfold rest in C2. rewrite Hrm in C2. apply elem_of_rest in C2 as [_ C2]. done.
    + intros (covers & C1 & C2 & C3 & ->). destruct covers as [|cov covers]; [done|]. apply list.Forall_cons in C2 as [(D1 & D2 & D3) C2].
      assert (Hc3 : forall i, i ∈ cov -> i ∈ examples) by by apply list.Forall_forall. pose proof (zlen_nonneg cov).
      apply can_bind. exists (Ok (zlen cov)). split. { apply can_rand_int. destruct (Z.leb_spec (int_quot n_test k) 0); [lia|]. exists (zlen cov). split; [done|lia]. }
      apply can_bind. exists (Ok cov). split. { apply can_random_sample; [done|lia|]. exists cov. by split_and!. }
      rewrite cover_ok; [|by apply Hin|done|done]. cbn [lift bind].
      destruct (Hrest cov Hc3 ltac:(lia)) as (R1 & R2 & R3). apply IH; [done..|]. exists covers. split_and!; [cbn in C1; lia| | |done].
      * apply list.Forall_forall. intros c Hc. eapply (proj1 (list.Forall_forall _ _)) in C2 as (E1 & E2 & E3); [|exact Hc]. split_and!; [done|done|].
        apply list.Forall_forall. intros i Hi. eapply (proj1 (list.Forall_forall _ _)) in E3; [|exact Hi]. unfold rest. destruct remove; [|done].
        apply elem_of_rest. split; [done|]. intros Hic. specialize (C3 eq_refl). cbn in C3. apply NoDup_app in C3 as (_ & C3 & _). apply (C3 i Hic).
        apply elem_of_list_In, in_concat. exists c. split; by apply elem_of_list_In.
      * intros Hrm. specialize (C3 Hrm). cbn in C3. by apply NoDup_app in C3 as (_ & _ & C3).
Qed.

Lemma test_err remove n_test k rules examples FL o : rules <> [] -> int_quot n_test k <= 0 ->
  (can (test_loop remove n_test k rules examples FL) o <-> o = Err ValueError).
Proof.
  intros Hne Hb. destruct rules as [|r rules]; [done|]. cbn [test_loop]. unfold rand_int. destruct (Z.leb_spec (int_quot n_test k) 0); [done|lia].
Qed.

(** ** The diverse generator *)
Lemma NoDup_range (n : Z) : NoDup (py_range n).
Proof. apply NoDup_py_range. Qed.
Lemma range_range (n m : Z) : n <= m -> Forall (fun i => 0 <= i < m) (py_range n).
Proof. intros H. apply list.Forall_forall. intros i Hi. apply elem_of_seqZ in Hi. lia. Qed.

Lemma elem_concat (covers : list (list Z)) i : i ∈ concat covers <-> exists c, c ∈ covers /\ i ∈ c.
Proof. rewrite elem_of_list_In, in_concat. split; intros (c & H1 & H2); exists c; split; by apply elem_of_list_In. Qed.

Lemma mat_paint n d sides covers : mat n d (paint sides covers (fun _ _ => 0)) = mat n d (painted sides covers).
Proof. apply mat_ext. intros a b _ _. apply paint_painted. Qed.

Lemma div_room (n k : Z) : 0 <= n -> 0 < k -> Z.of_nat (Z.to_nat k) * (n / k - 1) <= n.
Proof. intros Hn Hk. rewrite Z2Nat.id by lia. pose proof (Z.mul_div_le n k Hk). rewrite Z.mul_sub_distr_l. lia. Qed.

Lemma div_pos1 (n k : Z) : 0 < k -> k <= n -> 1 <= n / k.
Proof. intros Hk H. apply Z.div_le_lower_bound; lia. Qed.

Section Diverse.
Context (py39 : bool) (ord : gset Z -> list Z) (Hord : set_order ord) (n d l k : Z) (Hn : 0 <= n) (Hd : 0 <= d) (Hl : 0 <= l).
Context (Hok : k <= 0 \/ 3 <= d /\ 3 <= l /\ 0 < k <= n).

Definition train_args (rules : list (list Z * list Z)) (covers : list (list Z)) : Prop :=
  length rules = Z.to_nat k /\ Forall (fun r => proper_side ord d (fst r) /\ proper_side ord l (snd r)) rules /\
  length covers = length rules /\ covers_below n (n / k) covers /\ covers_disjoint covers.
Definition train_post (rules : list (list Z * list Z)) (covers : list (list Z)) (s' : dstate) : Prop :=
  ds_rules s' = rules /\ ds_FL s' = (mat n d (painted (map fst rules) covers), mat n l (painted (map snd rules) covers)).

Let s0 := DState [] [] [] (py_range n) (mat n d (fun _ _ => 0), mat n l (fun _ _ => 0)).

Lemma train_can o : can (diverse_loop py39 ord n d l k (Z.to_nat k) s0) o ->
  exists s' rules covers, o = Ok s' /\ train_args rules covers /\ train_post rules covers s'.
Proof.
  intros H. destruct Hok as [Hk|(Hd3 & Hl3 & Hk & Hkn)].
  - rewrite to_nat_nonpos in H by done. cbn in H. subst o. exists s0, [], []. split; [done|]. split; [|done].
    split_and!; [by rewrite to_nat_nonpos|constructor|done|constructor|constructor].
  - pose proof (div_pos1 n k Hk Hkn) as Hb. rewrite <- (int_quot_eq n k Hn Hk) in Hb.
    apply (loop_can py39 ord Hord n d l k Hd3 Hl3 _ _ (fun _ _ => 0) (fun _ _ => 0)) in H as (s' & rules & covers & -> & (A1 & A2 & A3 & A4 & A5 & A6) & P1 & P2);
      [|done|apply NoDup_range|by apply range_range|rewrite int_quot_eq by done; cbn [ds_examples s0]; unfold py_range; rewrite zlen_seqZ by done; by apply div_room|done].
    exists s', rules, covers. split; [done|]. split.
    + split_and!; [done|done|lia| |done]. apply list.Forall_forall. intros c Hc. eapply (proj1 (list.Forall_forall _ _)) in A4 as [B1 B2]; [|exact Hc].
      rewrite <- int_quot_eq by done. split_and!; [done|done|]. apply list.Forall_forall. intros i Hi. assert (Hi' : i ∈ concat covers) by (apply elem_concat; eauto).
      apply A6 in Hi'. apply elem_of_seqZ in Hi'. lia.
    + split; [done|]. rewrite P2, !mat_paint. done.
Qed.

Lemma can_train rules covers : train_args rules covers ->
  exists s', can (diverse_loop py39 ord n d l k (Z.to_nat k) s0) (Ok s') /\ train_post rules covers s'.
Proof.
  intros (A1 & A2 & A3 & A4 & A5). destruct Hok as [Hk|(Hd3 & Hl3 & Hk & Hkn)].
  - rewrite to_nat_nonpos in * by done. destruct rules; [|done]. destruct covers; [|done]. exists s0. done.
  - pose proof (div_pos1 n k Hk Hkn) as Hb. rewrite <- (int_quot_eq n k Hn Hk) in Hb.
    destruct (can_loop py39 ord Hord n d l k Hd3 Hl3 (Z.to_nat k) s0 (fun _ _ => 0) (fun _ _ => 0) rules covers) as (s' & E & P1 & P2);
      [apply NoDup_range|by apply range_range|rewrite int_quot_eq by done; cbn [ds_examples s0]; unfold py_range; rewrite zlen_seqZ by done; by apply div_room|done|done| |].
    + rewrite int_quot_eq by done. split_and!; [done|lia|done| |done|].
      * eapply list.Forall_impl; [exact A4|]. intros c (B1 & B2 & B3). done.
      * intros i Hi. apply elem_concat in Hi as (c & Hc & Hi). eapply (proj1 (list.Forall_forall _ _)) in A4 as (B1 & B2 & B3); [|exact Hc].
        eapply (proj1 (list.Forall_forall _ _)) in B3; [|exact Hi]. apply elem_of_seqZ. lia.
    + exists s'. split; [done|]. split; [done|]. rewrite P2, !mat_paint. done.
Qed.
End Diverse.

Lemma can_test_top remove n d l nt k rules o : 0 <= nt <= n -> rules = [] \/ 0 < k <= nt -> zlen rules <= Z.max 0 k ->
  Forall (fun r => Forall (fun j => 0 <= j < d) (fst r) /\ Forall (fun j => 0 <= j < l) (snd r)) rules ->
  (can (test_loop remove nt k rules (py_range nt) (mat n d (fun _ _ => 0), mat n l (fun _ _ => 0))) o <->
   exists covers, length covers = length rules /\ covers_below nt (nt / k) covers /\ (remove = true -> covers_disjoint covers) /\
     o = Ok (mat n d (painted (map fst rules) covers), mat n l (painted (map snd rules) covers))).
Proof.
  intros Hn Hk Hlen Hr. destruct Hk as [->|Hk].
  - cbn [test_loop can]. split.
    + intros ->. exists []. split_and!; [done|constructor|constructor|done].
    + intros (covers & Hc & _ & _ & ->). by destruct covers.
  - pose proof (div_pos1 nt k ltac:(lia) ltac:(lia)) as Hb. pose proof (div_room nt k ltac:(lia) ltac:(lia)) as Hroom.
    rewrite Z2Nat.id in Hroom by lia. pose proof (zlen_nonneg rules). rewrite can_test; [|by rewrite int_quot_eq by lia|done|apply NoDup_range|apply range_range; lia|].
    + rewrite int_quot_eq by lia. split; intros (covers & C1 & C2 & C3 & ->); exists covers; (split_and!; [done| |done|by rewrite !mat_paint]).
      * apply list.Forall_forall. intros c Hc. eapply (proj1 (list.Forall_forall _ _)) in C2 as (B1 & B2 & B3); [|exact Hc]. split_and!; [done|done|].
        eapply list.Forall_impl; [exact B3|]. intros i Hi. cbn beta in Hi. apply elem_of_seqZ in Hi. cbn beta. lia.
      * apply list.Forall_forall. intros c Hc. eapply (proj1 (list.Forall_forall _ _)) in C2 as (B1 & B2 & B3); [|exact Hc]. split_and!; [done|done|].
        eapply list.Forall_impl; [exact B3|]. intros i Hi. cbn beta in Hi. apply elem_of_seqZ. lia.
    + rewrite int_quot_eq by lia. unfold py_range. rewrite zlen_seqZ by lia. destruct remove; [|assert (nt / k <= nt) by (apply Z.div_le_upper_bound; nia); lia].
      transitivity (k * (nt / k - 1)); [|done]. apply Z.mul_le_mono_nonneg_r; lia.
Qed.

Lemma np_zeros_ok n d : 0 <= n -> 0 <= d -> np_zeros n d = Ok (mat n d (fun _ _ => 0)).
Proof.
  intros Hn Hd. unfold np_zeros. destruct (Z.ltb_spec n 0); [lia|]. destruct (Z.ltb_spec d 0); [lia|]. cbn [orb]. by rewrite mat_zeros.
Qed.

Lemma C66_diverse_generator_proof : forall (py39 : bool) (ord : gset Z -> list Z) (n d l k : Z) (noise : Qc) (o : result synth),
  set_order ord ->
  (can (generate_diverse py39 ord n d l k noise) o <->
   match diverse_error n d l k with
   | Some e => o = Err e
   | None => exists F L Ft Lt rules, o = Ok (F, L, Ft, Lt, rules) /\ diverse_data ord n d l k noise F L Ft Lt rules
   end).
Proof.
  intros py39 ord n d l k noise o Hord. unfold diverse_error.
  destruct (Z.ltb_spec n 0) as [Hn|Hn]; [unfold generate_diverse, np_zeros; rewrite (proj2 (Z.ltb_lt n 0)) by done; done|].
  destruct (Z.ltb_spec d 0) as [Hd|Hd]; [unfold generate_diverse, np_zeros; rewrite (proj2 (Z.ltb_lt d 0)) by done; rewrite orb_true_r; done|].
  destruct (Z.ltb_spec l 0) as [Hl|Hl].
  { unfold generate_diverse. rewrite np_zeros_ok by done. cbn [lift bind]. unfold np_zeros; rewrite (proj2 (Z.ltb_lt l 0)) by done. rewrite orb_true_r. done. }
  cbn [orb]. unfold generate_diverse. rewrite !np_zeros_ok by done. cbn [lift bind]. rewrite int_frac_4 by done. rewrite !mat_zeros by done.
  assert (Hnt : 0 <= 2 * n / 5 <= n) by (split; [apply Z.div_pos; lia|apply Z.div_le_upper_bound; lia]).
  assert (Hmain : (k <= 0 \/ 3 <= d /\ 3 <= l /\ 0 < k <= 2 * n / 5) ->
    (can (let? s := diverse_loop py39 ord n d l k (Z.to_nat k) (DState [] [] [] (py_range n) (mat n d (fun _ _ => 0), mat n l (fun _ _ => 0))) in
      let? FL := add_noise n d l noise (ds_FL s) in
      let? FLt := test_loop true (2 * n / 5) k (ds_rules s) (py_range (2 * n / 5)) (mat n d (fun _ _ => 0), mat n l (fun _ _ => 0)) in
      let? FLt0 := add_noise n d l noise FLt in Ret (fst FL, snd FL, fst FLt0, snd FLt0, ds_rules s)) o
     <-> exists F L Ft Lt rules, o = Ok (F, L, Ft, Lt, rules) /\ diverse_data ord n d l k noise F L Ft Lt rules)).
  { intros Hok. assert (Hok' : k <= 0 \/ 3 <= d /\ 3 <= l /\ 0 < k <= n) by lia.
    assert (Htest : forall rules o, length rules = Z.to_nat k -> Forall (fun r => proper_side ord d (fst r) /\ proper_side ord l (snd r)) rules ->
      (can (test_loop true (2 * n / 5) k rules (py_range (2 * n / 5)) (mat n d (fun _ _ => 0), mat n l (fun _ _ => 0))) o <->
       exists covers, length covers = length rules /\ covers_below (2 * n / 5) (2 * n / 5 / k) covers /\ (true = true -> covers_disjoint covers) /\
       o = Ok (mat n d (painted (map fst rules) covers), mat n l (painted (map snd rules) covers)))).
    { intros rules o' Hlen Hp. apply can_test_top; [done| |unfold zlen; lia|].
      - destruct Hok as [Hk|(_ & _ & Hk)]; [left|by right]. rewrite to_nat_nonpos in Hlen by done. by apply nil_length_inv in Hlen.
      - eapply list.Forall_impl; [exact Hp|]. intros r [H1 H2]. split; by eapply proper_range. }
    split.
    - intros H. apply can_bind in H as (a & Ha & H).
      apply (train_can py39 ord Hord n d l k Hn Hok') in Ha as (s' & rules & covers & -> & (A1 & A2 & A3 & A4 & A5) & P1 & P2).
      rewrite P1, P2 in H. apply can_bind in H as (a & Ha & H). apply can_add_noise in Ha as (ff & fg & F1 & F2 & ->); [|done..].
      apply can_bind in H as (a & Ha & H). apply Htest in Ha as (coverst & C1 & C2 & C3 & ->); [|done|done].
      apply can_bind in H as (a & Ha & H). apply can_add_noise in Ha as (fft & fgt & F3 & F4 & ->); [|done..]. cbn [can fst snd] in H. subst o.
      do 5 eexists. split; [done|]. split; [done|]. split; [done|]. split.
      + exists covers. split_and!; [done|done|done|by exists ff|by exists fg].
      + exists coverst. split_and!; [done|done|by apply C3|by exists fft|by exists fgt].
    - intros (F & L & Ft & Lt & rules & -> & A1 & A2 & (covers & A3 & A4 & A5 & (ff & F1 & ->) & (fg & F2 & ->)) & (coverst & B3 & B4 & B5 & (fft & F3 & ->) & (fgt & F4 & ->))).
      destruct (can_train py39 ord Hord n d l k Hn Hok' rules covers) as (s' & E & P1 & P2); [done|].
      apply can_bind. eexists (Ok _). split; [exact E|]. rewrite P1, P2.
      apply can_bind. eexists (Ok _). split; [apply can_add_noise; [done..|]; by exists ff, fg|].
      apply can_bind. eexists (Ok _). split; [apply Htest; [done|done|]; exists coverst; by split_and!|].
      apply can_bind. eexists (Ok _). split; [apply can_add_noise; [done..|]; by exists fft, fgt|]. done. }
  destruct (Z.leb_spec k 0) as [Hk|Hk]; [apply Hmain; by left|].
  destruct (Z.leb_spec d 2) as [Hd2|Hd2]; cbn [orb].
  { replace (Z.to_nat k) with (S (Z.to_nat (k - 1))) by lia. cbn [diverse_loop]. unfold diverse_step. rewrite size_err by done. done. }
  destruct (Z.leb_spec l 2) as [Hl2|Hl2]; cbn [orb].
  { replace (Z.to_nat k) with (S (Z.to_nat (k - 1))) by lia. cbn [diverse_loop]. unfold diverse_step. rewrite (size_err py39 l) by done. split.
    - intros H. apply can_bind in H as (a & Ha & H). apply can_bind in Ha as (a' & Ha' & Ha). apply can_bind in Ha' as (b & Hb & Ha'). apply can_size in Hb as (sh & -> & Hsh); [|lia].
      cbn in Ha'. subst a'. subst a. done.
    - intros ->. apply can_bind. exists (Err IndexError). split; [|done]. apply can_bind. exists (Err IndexError). split; [|done].
      apply can_bind. exists (Ok 2). split; [|done]. apply can_size; [lia|]. exists 2. split; [done|lia]. }
  destruct (Z.ltb_spec (2 * n / 5) k) as [Hkt|Hkt]; [|apply Hmain; right; lia].
  destruct (decide (k <= n)) as [Hkn|Hkn].
  - assert (Hok' : k <= 0 \/ 3 <= d /\ 3 <= l /\ 0 < k <= n) by lia.
    assert (Hq : int_quot (2 * n / 5) k <= 0). { rewrite int_quot_eq by lia. rewrite Z.div_small by lia. done. }
    split.
    + intros H. apply can_bind in H as (a & Ha & H).
      apply (train_can py39 ord Hord n d l k Hn Hok') in Ha as (s' & rules & covers & -> & (A1 & A2 & A3 & A4 & A5) & P1 & P2).
      rewrite P1, P2 in H. apply can_bind in H as (a & Ha & H). apply can_add_noise in Ha as (ff & fg & F1 & F2 & ->); [|done..].
      apply can_bind in H as (a & Ha & H). apply test_err in Ha as ->; [done| |done]. intros ->. cbn in A1. lia.
    + intros ->. destruct (can_train py39 ord Hord n d l k Hn Hok' (replicate (Z.to_nat k) (ord {[0]}, ord {[0]})) (replicate (Z.to_nat k) [])) as (s' & E & P1 & P2).
      { split_and!; [by rewrite replicate_length|apply Forall_replicate; split; by apply proper_exists; lia|by rewrite !replicate_length| |].
        - apply Forall_replicate. pose proof (div_pos1 n k ltac:(lia) Hkn). split_and!; [change (0 < n / k); lia|constructor|constructor].
        - unfold covers_disjoint. clear. induction (Z.to_nat k); [constructor|done]. }
      destruct (flips_exist n d noise Hn Hd) as (ff & Hff). destruct (flips_exist n l noise Hn Hl) as (fg & Hfg).
      apply can_bind. eexists (Ok _). split; [exact E|]. rewrite P1, P2.
      apply can_bind. eexists (Ok _). split; [apply can_add_noise; [done..|]; by exists ff, fg|].
      apply can_bind. exists (Err ValueError). split; [|done]. apply test_err; [|done|done]. intros E'. apply (f_equal length) in E'. rewrite replicate_length in E'. cbn in E'. lia.
  - assert (Hq : int_quot n k <= 0). { rewrite int_quot_eq by lia. rewrite Z.div_small by lia. done. }
    pose proof (loop_err py39 ord Hord n d l k ltac:(lia) ltac:(lia) (Z.to_nat k) (DState [] [] [] (py_range n) (mat n d (fun _ _ => 0), mat n l (fun _ _ => 0)))) as Hloop.
    split.
    + intros H. apply can_bind in H as (a & Ha & H). apply Hloop in Ha as ->; [done|lia|done].
    + intros ->. apply can_bind. exists (Err ValueError). split; [|done]. apply Hloop; [lia|done|done].
Qed.


(** ** The other generator *)
Lemma paint1_snoc sides covers h cov f : forall a b, length covers = length sides ->
  paint1 h cov (paint sides covers f) a b = paint (sides ++ [h]) (covers ++ [cov]) f a b.
Proof.
  revert covers f. induction sides as [|s sides IH]; intros covers f a b Hlen; destruct covers as [|c covers]; try done. cbn [app paint]. apply IH. cbn in Hlen. lia.
Qed.

Section Plain.
Context (n d l k : Z) (noise : Qc) (Hn : 0 <= n) (Hd : 3 <= d) (Hl : 2 <= l) (Hk : 0 < k).

Definition plain_rule (r : list Z * list Z) : Prop := sample_side 2 d (fst r) /\ sample_side 1 l (snd r).
Definition plain_cover (c : list Z) : Prop := zlen c < n / k /\ NoDup c /\ Forall (fun i => 0 <= i < n) c.

Lemma sample_range lo hi o : 0 <= lo -> lo < hi -> (exists s, lo <= s < hi /\ can (random_sample (py_range hi) s) o) <-> exists c, o = Ok c /\ sample_side lo hi c.
Proof.
  intros H0 Hlt. assert (Hz : zlen (py_range hi) = hi) by (unfold py_range; rewrite zlen_seqZ; lia). split.
  - intros (s & Hs & H). apply can_random_sample in H as (c & -> & H1 & H2 & H3); [|apply NoDup_range|lia]. exists c. split; [done|].
    split_and!; [done| |lia|lia]. apply list.Forall_forall. intros x Hx. apply H3, elem_of_seqZ in Hx. lia.
  - intros (c & -> & H1 & H2 & H3). exists (zlen c). split; [done|]. apply can_random_sample; [apply NoDup_range|lia|]. exists c. split_and!; [done|done|done|].
    intros x Hx. eapply (proj1 (list.Forall_forall _ _)) in H2; [|exact Hx]. apply elem_of_seqZ. lia.
Qed.

Lemma can_cover (Hkn : k <= n) c : (exists m, 0 <= m < n / k /\ can (random_sample (py_range n) m) (Ok c)) <-> plain_cover c.
Proof.
  pose proof (div_pos1 n k Hk Hkn) as Hb. assert (n / k <= n) by (apply Z.div_le_upper_bound; nia).
  assert (Hz : zlen (py_range n) = n) by (unfold py_range; rewrite zlen_seqZ; lia). split.
  - intros (m & Hm & H'). apply can_random_sample in H' as (c' & E & H1 & H2 & H3); [|apply NoDup_range|lia]. injection E as <-. split_and!; [lia|done|].
    apply list.Forall_forall. intros x Hx. apply H3, elem_of_seqZ in Hx. lia.
  - intros (H1 & H2 & H3). pose proof (zlen_nonneg c). exists (zlen c). split; [lia|]. apply can_random_sample; [apply NoDup_range|lia|]. exists c. split_and!; [done|done|done|].
    intros x Hx. eapply (proj1 (list.Forall_forall _ _)) in H3; [|exact Hx]. apply elem_of_seqZ. lia.
Qed.

Lemma sample_not_err {A} (xs : list A) m e : NoDup xs -> 0 <= m <= zlen xs -> ~ can (random_sample xs m) (Err e).
Proof. intros Hnd Hm H. by apply can_random_sample in H as (c & ? & _). Qed.

(** one round *)
Lemma plain_round (Hkn : k <= n) count rules f g nz o :
  can (plain_loop n d l k noise (S count) rules (mat n d f, mat n l g) nz) o <->
  exists h t cov ff fg, plain_rule (h, t) /\ plain_cover cov /\ flips_of n d noise ff /\ flips_of n l noise fg /\
    can (plain_loop n d l k noise count (rules ++ [(h, t)]) (mat n d (paint1 h cov f), mat n l (paint1 t cov g))
          (Some (mat n d (flipped ff (paint1 h cov f)), mat n l (flipped fg (paint1 t cov g))))) o.
Proof.
  pose proof (div_pos1 n k Hk Hkn) as Hb. assert (Hq : int_quot n k = n / k) by (apply int_quot_eq; lia). cbn [plain_loop].
  assert (Hdn : n / k <= n) by (apply Z.div_le_upper_bound; nia).
  assert (Hz : forall m, 0 <= m -> zlen (py_range m) = m) by (intros m Hm; unfold py_range; rewrite zlen_seqZ; lia).
  split.
  - intros H. apply can_bind in H as (a & Ha & H). apply can_rand_int in Ha. destruct (Z.leb_spec d 2); [lia|]. destruct Ha as (sh & -> & Hsh).
    apply can_bind in H as (a & Ha & H). apply can_rand_int in Ha. destruct (Z.leb_spec l 1); [lia|]. destruct Ha as (st & -> & Hst).
    apply can_bind in H as (a & Ha & H). destruct (proj1 (sample_range 2 d a ltac:(lia) ltac:(lia)) ltac:(by exists sh)) as (h & -> & Hh).
    apply can_bind in H as (a' & Ha' & H). destruct (proj1 (sample_range 1 l a' ltac:(lia) ltac:(lia)) ltac:(by exists st)) as (t & -> & Ht).
    apply can_bind in H as (m & Hm & H). apply can_rand_int in Hm. rewrite Hq in Hm. destruct (Z.leb_spec (n / k) 0); [lia|]. destruct Hm as (m' & -> & Hm).
    apply can_bind in H as (c & Hc & H). destruct c as [cov|e]; [|exfalso; apply (sample_not_err (py_range n) m' e); [apply NoDup_range|rewrite Hz; lia|done]].
    assert (Hcov : plain_cover cov) by (apply can_cover; [done|]; by exists m'). destruct Hcov as (C1 & C2 & C3).
    rewrite cover_ok in H; [|done|apply Hh|apply Ht]. cbn [lift bind] in H.
    apply can_bind in H as (c & Hc' & H). apply can_add_noise in Hc' as (ff & fg & F1 & F2 & ->); [|lia..].
    exists h, t, cov, ff, fg. by split_and!.
  - intros (h & t & cov & ff & fg & [Hh Ht] & Hcov & F1 & F2 & H). cbn [fst snd] in *.
    destruct (proj2 (sample_range 2 d (Ok h) ltac:(lia) ltac:(lia)) ltac:(by exists h)) as (sh & Hsh & Ch).
    destruct (proj2 (sample_range 1 l (Ok t) ltac:(lia) ltac:(lia)) ltac:(by exists t)) as (st & Hst & Ct).
    destruct (proj2 (can_cover Hkn cov) Hcov) as (m & Hm & Cc).
    apply can_bind. exists (Ok sh). split. { apply can_rand_int. destruct (Z.leb_spec d 2); [lia|]. by exists sh. }
    apply can_bind. exists (Ok st). split. { apply can_rand_int. destruct (Z.leb_spec l 1); [lia|]. by exists st. }
    apply can_bind. exists (Ok h). split; [done|]. apply can_bind. exists (Ok t). split; [done|].
    apply can_bind. exists (Ok m). split. { apply can_rand_int. rewrite Hq. destruct (Z.leb_spec (n / k) 0); [lia|]. by exists m. }
    apply can_bind. exists (Ok cov). split; [done|]. destruct Hcov as (C1 & C2 & C3).
    rewrite cover_ok; [|done|apply Hh|apply Ht]. cbn [lift bind].
    apply can_bind. eexists (Ok _). split; [apply can_add_noise; [lia..|]; by exists ff, fg|]. done.
Qed.

Lemma plain_loop_can (Hkn : k <= n) count : forall rules covers nz o, length covers = length rules ->
  can (plain_loop n d l k noise (S count) rules (mat n d (paint (map fst rules) covers (fun _ _ => 0)), mat n l (paint (map snd rules) covers (fun _ _ => 0))) nz) o <->
  exists rules' covers' ff fg, length rules' = S count /\ length covers' = S count /\ Forall plain_rule rules' /\ Forall plain_cover covers' /\
    flips_of n d noise ff /\ flips_of n l noise fg /\
    o = Ok (rules ++ rules', Some (mat n d (flipped ff (painted (map fst (rules ++ rules')) (covers ++ covers'))), mat n l (flipped fg (painted (map snd (rules ++ rules')) (covers ++ covers'))))).
Proof.
  induction count as [|count IH]; intros rules covers nz o Hlen.
  - rewrite plain_round by done. cbn [plain_loop can].
    assert (Hm : forall (p : list Z * list Z -> list Z) (dd : Z) x cov flips, mat n dd (flipped flips (paint1 (p x) cov (paint (map p rules) covers (fun _ _ => 0))))
      = mat n dd (flipped flips (painted (map p (rules ++ [x])) (covers ++ [cov])))).
    { intros p dd x cov flips. apply mat_ext. intros a b _ _. apply flipped_ext. rewrite paint1_snoc by by rewrite map_length. rewrite map_app. apply paint_painted. }
    split.
    + intros (h & t & cov & ff & fg & H1 & H2 & F1 & F2 & ->). exists [(h, t)], [cov], ff, fg. split_and!; try done; [by constructor|by constructor|].
      by rewrite <- (Hm fst d (h, t)), <- (Hm snd l (h, t)).
    + intros (rules' & covers' & ff & fg & E1 & E2 & H1 & H2 & F1 & F2 & ->). destruct rules' as [|[h t] [|? ?]]; [done| |done]. destruct covers' as [|cov [|? ?]]; [done| |done].
      apply list.Forall_cons in H1 as [H1 _]. apply list.Forall_cons in H2 as [H2 _]. exists h, t, cov, ff, fg. split_and!; try done.
      by rewrite <- (Hm fst d (h, t)), <- (Hm snd l (h, t)).
  - rewrite plain_round by done.
    assert (Hm : forall (p : list Z * list Z -> list Z) (dd : Z) x cov, mat n dd (paint1 (p x) cov (paint (map p rules) covers (fun _ _ => 0)))
      = mat n dd (paint (map p (rules ++ [x])) (covers ++ [cov]) (fun _ _ => 0))).
    { intros p dd x cov. apply mat_ext. intros a b _ _. rewrite paint1_snoc by by rewrite map_length. by rewrite map_app. }
    split.
    + intros (h & t & cov & ff & fg & H1 & H2 & F1 & F2 & H). rewrite (Hm fst d (h, t)), (Hm snd l (h, t)) in H.
      apply IH in H as (rules' & covers' & ff' & fg' & E1 & E2 & G1 & G2 & F1' & F2' & ->); [|rewrite !app_length; cbn; lia].
      exists ((h, t) :: rules'), (cov :: covers'), ff', fg'. rewrite <- !app_assoc. split_and!; try done; [cbn; lia|cbn; lia|by constructor|by constructor].
    + intros (rules' & covers' & ff & fg & E1 & E2 & H1 & H2 & F1 & F2 & ->). destruct rules' as [|[h t] rules']; [done|]. destruct covers' as [|cov covers']; [done|].
      apply list.Forall_cons in H1 as [H1 H1']. apply list.Forall_cons in H2 as [H2 H2'].
      exists h, t, cov, ff, fg. split_and!; try done. rewrite (Hm fst d (h, t)), (Hm snd l (h, t)). apply IH; [rewrite !app_length; cbn; lia|].
      exists rules', covers', ff, fg. rewrite <- !app_assoc. split_and!; try done; [cbn in E1; lia|cbn in E2; lia].
Qed.

Lemma plain_loop_err count rules FL nz o : n < k -> (can (plain_loop n d l k noise (S count) rules FL nz) o <-> o = Err ValueError).
Proof.
  intros Hkn. cbn [plain_loop]. assert (Hq : int_quot n k <= 0) by (rewrite int_quot_eq, Z.div_small by lia; done).
  assert (Hz : forall m, 0 <= m -> zlen (py_range m) = m) by (intros m Hm; unfold py_range; rewrite zlen_seqZ; lia).
  split.
  - intros H. apply can_bind in H as (a & Ha & H). apply can_rand_int in Ha. destruct (Z.leb_spec d 2); [lia|]. destruct Ha as (sh & -> & Hsh).
    apply can_bind in H as (a & Ha & H). apply can_rand_int in Ha. destruct (Z.leb_spec l 1); [lia|]. destruct Ha as (st & -> & Hst).
    apply can_bind in H as (a & Ha & H). destruct (proj1 (sample_range 2 d a ltac:(lia) ltac:(lia)) ltac:(by exists sh)) as (h & -> & Hh).
    apply can_bind in H as (a' & Ha' & H). destruct (proj1 (sample_range 1 l a' ltac:(lia) ltac:(lia)) ltac:(by exists st)) as (t & -> & Ht).
    apply can_bind in H as (m & Hm & H). apply can_rand_int in Hm. destruct (Z.leb_spec (int_quot n k) 0); [|lia]. by subst m.
  - intros ->.
    assert (Hside : forall lo hi, 0 <= lo -> lo < hi -> exists h s, lo <= s < hi /\ can (random_sample (py_range hi) s) (Ok h)).
    { intros lo hi H0 Hlt. exists (py_range lo), lo. split; [lia|]. apply can_random_sample; [apply NoDup_range|rewrite Hz; lia|]. exists (py_range lo).
      split_and!; [done|apply NoDup_range|apply Hz; lia|]. intros x Hx. apply elem_of_seqZ in Hx. apply elem_of_seqZ. lia. }
    destruct (Hside 2 d ltac:(lia) ltac:(lia)) as (h & sh & Hsh & Ch). destruct (Hside 1 l ltac:(lia) ltac:(lia)) as (t & st & Hst & Ct).
    apply can_bind. exists (Ok sh). split. { apply can_rand_int. destruct (Z.leb_spec d 2); [lia|]. by exists sh. }
    apply can_bind. exists (Ok st). split. { apply can_rand_int. destruct (Z.leb_spec l 1); [lia|]. by exists st. }
    apply can_bind. exists (Ok h). split; [done|]. apply can_bind. exists (Ok t). split; [done|].
    apply can_bind. exists (Err ValueError). split; [|done]. apply can_rand_int. destruct (Z.leb_spec (int_quot n k) 0); [done|lia].
Qed.
End Plain.

Lemma plain_rules_exist d l m : 3 <= d -> 2 <= l -> exists rules, length rules = m /\ Forall (plain_rule d l) rules.
Proof.
  intros Hd Hl. exists (replicate m (py_range 2, py_range 1)). split; [by rewrite replicate_length|]. apply Forall_replicate. split; cbn [fst snd].
  - split_and!; [apply NoDup_range|apply range_range; lia|done|change (2 < d); lia].
  - split_and!; [apply NoDup_range|apply range_range; lia|done|change (1 < l); lia].
Qed.

Lemma C67_plain_generator_proof : forall (n d l k : Z) (noise : Qc) (o : result synth),
  can (generate_plain n d l k noise) o <->
  match plain_error n d l k with
  | Some e => o = Err e
  | None => exists F L Ft Lt rules, o = Ok (F, L, Ft, Lt, rules) /\ plain_data n d l k noise F L Ft Lt rules
  end.
Proof.
  intros n d l k noise o. unfold plain_error.
  destruct (Z.ltb_spec n 0) as [Hn|Hn]; [unfold generate_plain, np_zeros; rewrite (proj2 (Z.ltb_lt n 0)) by done; done|].
  destruct (Z.ltb_spec d 0) as [Hd|Hd]; [unfold generate_plain, np_zeros; rewrite (proj2 (Z.ltb_lt d 0)) by done; rewrite orb_true_r; done|].
  destruct (Z.ltb_spec l 0) as [Hl|Hl].
  { unfold generate_plain. rewrite np_zeros_ok by done. cbn [lift bind]. unfold np_zeros; rewrite (proj2 (Z.ltb_lt l 0)) by done. rewrite orb_true_r. done. }
  cbn [orb]. unfold generate_plain. rewrite !np_zeros_ok by done. cbn [lift bind]. rewrite int_frac_3 by done. rewrite !mat_zeros by done.
  assert (Hnt : 0 <= 3 * n / 10 <= n) by (split; [apply Z.div_pos; lia|apply Z.div_le_upper_bound; lia]).
  destruct (Z.leb_spec k 0) as [Hk|Hk].
  { rewrite to_nat_nonpos by done. cbn [plain_loop bind fst snd test_loop]. split.
    - intros H. apply can_bind in H as (a & Ha & H). apply can_add_noise in Ha as (ff & fg & F1 & F2 & ->); [|done..]. exact H.
    - intros ->. destruct (flips_exist n d noise Hn Hd) as (ff & Hff). destruct (flips_exist n l noise Hn Hl) as (fg & Hfg).
      apply can_bind. eexists (Ok _). split; [apply can_add_noise; [done..|]; by exists ff, fg|]. done. }
  replace (Z.to_nat k) with (S (Z.to_nat (k - 1))) by lia.
  destruct (Z.leb_spec d 2) as [Hd2|Hd2]; cbn [orb].
  { cbn [plain_loop]. unfold rand_int at 1. destruct (Z.leb_spec d 2); [|lia]. done. }
  destruct (Z.leb_spec l 1) as [Hl2|Hl2]; cbn [orb].
  { cbn [plain_loop]. split.
    - intros H. apply can_bind in H as (a & Ha & H). apply can_bind in Ha as (a' & Ha' & Ha). apply can_rand_int in Ha'. destruct (Z.leb_spec d 2); [lia|]. destruct Ha' as (sh & -> & _).
      apply can_bind in Ha as (a' & Ha' & Ha). apply can_rand_int in Ha'. destruct (Z.leb_spec l 1); [|lia]. subst a'. subst a. done.
    - intros ->. apply can_bind. exists (Err ValueError). split; [|done]. apply can_bind. exists (Ok 2). split; [apply can_rand_int; destruct (Z.leb_spec d 2); [lia|]; exists 2; split; [done|lia]|].
      apply can_bind. exists (Err ValueError). split; [|done]. apply can_rand_int. destruct (Z.leb_spec l 1); [done|lia]. }
  assert (Hloop : k <= n -> forall o, _) by (intros Hkn; exact (fun o => plain_loop_can n d l k noise Hn ltac:(lia) ltac:(lia) Hk Hkn (Z.to_nat (k - 1)) [] [] None o eq_refl)).
  cbn [map app paint] in Hloop.
  destruct (Z.ltb_spec (3 * n / 10) k) as [Hkt|Hkt].
  - destruct (decide (k <= n)) as [Hkn|Hkn].
    + assert (Hq : int_quot (3 * n / 10) k <= 0) by (rewrite int_quot_eq, Z.div_small by lia; done). split.
      * intros H. apply can_bind in H as (a & Ha & H). apply (Hloop Hkn) in Ha as (rules & covers & ff & fg & E1 & E2 & H1 & H2 & F1 & F2 & ->). cbn [fst snd] in H.
        apply can_bind in H as (a & Ha & H). apply test_err in Ha as ->; [done| |done]. intros ->. done.
      * intros ->. destruct (plain_rules_exist d l (S (Z.to_nat (k - 1))) ltac:(lia) ltac:(lia)) as (rules & R1 & R2).
        destruct (flips_exist n d noise Hn Hd) as (ff & Hff). destruct (flips_exist n l noise Hn Hl) as (fg & Hfg).
        apply can_bind. eexists (Ok _). split.
        { apply (Hloop Hkn). exists rules, (replicate (S (Z.to_nat (k - 1))) []), ff, fg. split_and!; [done|by rewrite replicate_length|done| |done|done|done].
          apply Forall_replicate. pose proof (div_pos1 n k Hk Hkn). split_and!; [change (0 < n / k); lia|constructor|constructor]. }
        cbn [fst snd]. apply can_bind. exists (Err ValueError). split; [|done]. apply test_err; [|done|done]. intros ->. done.
    + split.
      * intros H. apply can_bind in H as (a & Ha & H). apply plain_loop_err in Ha as ->; [done|lia..].
      * intros ->. apply can_bind. exists (Err ValueError). split; [|done]. apply plain_loop_err; [lia..|done].
  - assert (Hkn : k <= n) by lia. specialize (Hloop Hkn).
    assert (Htest : forall rules o, length rules = S (Z.to_nat (k - 1)) -> Forall (plain_rule d l) rules ->
      (can (test_loop false (3 * n / 10) k rules (py_range (3 * n / 10)) (mat n d (fun _ _ => 0), mat n l (fun _ _ => 0))) o <->
       exists covers, length covers = length rules /\ covers_below (3 * n / 10) (3 * n / 10 / k) covers /\ (false = true -> covers_disjoint covers) /\
       o = Ok (mat n d (painted (map fst rules) covers), mat n l (painted (map snd rules) covers)))).
    { intros rules o' Hlen Hp. apply can_test_top; [done|right; lia|unfold zlen; lia|].
      eapply list.Forall_impl; [exact Hp|]. intros r [(_ & H1 & _) (_ & H2 & _)]. done. }
    split.
    + intros H. apply can_bind in H as (a & Ha & H). apply Hloop in Ha as (rules & covers & ff & fg & E1 & E2 & H1 & H2 & F1 & F2 & ->). cbn [fst snd] in H.
      apply can_bind in H as (a & Ha & H). apply Htest in Ha as (coverst & C1 & C2 & _ & ->); [|done|done].
      apply can_bind in H as (a & Ha & H). apply can_add_noise in Ha as (fft & fgt & F3 & F4 & ->); [|done..]. cbn [can fst snd] in H. subst o.
      do 5 eexists. split; [done|]. split; [lia|]. split; [done|]. split.
      * exists covers. split_and!; [lia|done|by exists ff|by exists fg].
      * exists coverst. split_and!; [done|done|by exists fft|by exists fgt].
    + intros (F & L & Ft & Lt & rules & -> & A1 & A2 & (covers & A3 & A4 & (ff & F1 & ->) & (fg & F2 & ->)) & (coverst & B3 & B4 & (fft & F3 & ->) & (fgt & F4 & ->))).
      apply can_bind. eexists (Ok _). split; [apply Hloop; exists rules, covers, ff, fg; split_and!; try done; lia|]. cbn [fst snd].
      apply can_bind. eexists (Ok _). split; [apply Htest; [lia|done|]; exists coverst; by split_and!|].
      apply can_bind. eexists (Ok _). split; [apply can_add_noise; [done..|]; by exists fft, fgt|]. done.
Qed.


(** ** The law of the rules *)
Definition proper {A} (m : rand A) : Prop := forall c, expect m (fun _ => c) = c.

Lemma proper_ret {A} (a : A) : proper (Ret a).
Proof. done. Qed.
Lemma proper_lift {A} (r : result A) : proper (lift r).
Proof. by destruct r. Qed.
Lemma proper_bind {A B} (m : rand A) (f : A -> rand B) : proper m -> (forall a, proper (f a)) -> proper (bind m f).
Proof.
  intros Hm Hf c. rewrite expect_bind. transitivity (expect m (fun _ => c)); [|apply Hm]. apply expect_ext. intros [a|e] _; [apply Hf|done].
Qed.
Lemma proper_np {A} (xs : list A) ps : proper (np_choice xs ps).
Proof.
  intros c. unfold np_choice. destruct (_ || _) eqn:E; [done|]. apply orb_false_iff in E as [E1 E2]. apply orb_false_iff in E1 as [E1 E3]. apply orb_false_iff in E1 as [_ E4].
  apply negb_false_iff, bool_decide_eq_true in E2. apply negb_false_iff, Z.eqb_eq in E4.
  cbn [expect]. rewrite (imap_ext _ (fun i p => p * c)%Qc).
  - assert (Hi : forall l : list Qc, imap (fun (_ : nat) p => p * c)%Qc l = map (fun p => p * c)%Qc l) by (clear; induction l as [|x l IH]; [done|]; cbn; f_equal; exact IH).
    rewrite Hi. rewrite (qsum_map_mult_r c (fun p => p)), map_id, E2. ring.
  - intros i p _. by destruct (xs !! i).
Qed.
Lemma proper_rand_int lo hi : proper (rand_int lo hi).
Proof. unfold rand_int. destruct (hi <=? lo); [done|apply proper_np]. Qed.
Lemma proper_rc {A} py39 (xs : list A) ws : proper (random_choices py39 xs ws).
Proof. unfold random_choices. destruct (negb _); [done|]. destruct (_ =? _); [done|]. destruct (bool_decide _); [|apply proper_np]. destruct py39; [done|apply proper_lift]. Qed.
Lemma proper_sample {A} k : forall xs : list A, proper (sample_distinct k xs).
Proof.
  induction k as [|k IH]; intros xs; [done|]. cbn [sample_distinct]. apply proper_bind; [apply proper_np|]. intros i. destruct (xs !! i); [|done]. apply proper_bind; [apply IH|done].
Qed.
Lemma proper_random_sample {A} (xs : list A) k : proper (random_sample xs k).
Proof. unfold random_sample. destruct (_ || _); [done|apply proper_sample]. Qed.
Lemma proper_swaps k rows cols : forall M, proper (swap_cells k rows cols M).
Proof.
  induction k as [|k IH]; intros M; [done|]. cbn [swap_cells]. apply proper_bind; [apply proper_rand_int|]. intros i. apply proper_bind; [apply proper_rand_int|]. intros j.
  apply proper_bind; [apply proper_lift|]. apply IH.
Qed.
Lemma proper_noise n d l noise FL : proper (add_noise n d l noise FL).
Proof. unfold add_noise. apply proper_bind; [apply proper_swaps|]. intros F. apply proper_bind; [apply proper_swaps|done]. Qed.
Lemma proper_test remove nt k rules : forall ex FL, proper (test_loop remove nt k rules ex FL).
Proof.
  induction rules as [|r rules IH]; intros ex FL; [done|]. cbn [test_loop]. apply proper_bind; [apply proper_rand_int|]. intros m. apply proper_bind; [apply proper_random_sample|]. intros cov.
  apply proper_bind; [apply proper_lift|]. intros FL'. apply IH.
Qed.

Lemma expect_const_on {A} (m : rand A) f c : proper m -> (forall o, can m o -> f o = c) -> expect m f = c.
Proof. intros Hm H. transitivity (expect m (fun _ => c)); [by apply expect_ext|apply Hm]. Qed.

Lemma qsum_filter (A : gset Z) (xs : list Z) (q : Qc) :
  qsum (map (fun x => Qc_of_Z 1 * (if decide (x ∈ A) then q else 0)) xs)%Qc = (Qc_of_Z (zlen (filter (fun x => x ∈ A) xs)) * q)%Qc.
Proof.
  induction xs as [|x xs IH]; [change (0%Qc = Qc_of_Z 0 * q)%Qc; rewrite Z2Qc_inj_0; ring|]. cbn [map qsum foldr]. unfold qsum in IH. rewrite IH, filter_cons.
  destruct (decide (x ∈ A)); [rewrite zlen_cons, Qc_of_Z_plus, Z2Qc_inj_1; ring|]. ring.
Qed.

Lemma qsum_ones n : 0 <= n -> qsum (map (fun _ : Z => Qc_of_Z 1) (py_range n)) = Qc_of_Z n.
Proof.
  intros Hn. rewrite (qsum_Z (fun _ : Z => 1)). f_equal. transitivity (zlen (py_range n)); [|unfold py_range; by rewrite zlen_seqZ].
  generalize (py_range n). intros xs. induction xs as [|x xs IH]; [done|]. rewrite zlen_cons. cbn [map zsum foldr]. unfold zsum in *. cbn. lia.
Qed.

Definition frac_in (n : Z) (A : gset Z) : Qc := (Qc_of_Z (zlen (filter (fun x => x ∈ A) (seqZ 0 n))) / Qc_of_Z n)%Qc.

Lemma choices_law py39 n (A : gset Z) k : forall c, 0 < n ->
  expect (choices_many py39 k (py_range n) (map (fun _ => Qc_of_Z 1) (py_range n)))
    (fun o => match o with Ok l => if decide (Forall (fun x => x ∈ A) l) then c else 0 | Err _ => 0 end)%Qc = (c * frac_in n A ^ k)%Qc.
Proof.
  induction k as [|k IH]; intros c Hn; cbn [choices_many].
  - cbn. destruct (decide _) as [|H]; [ring|]. exfalso. apply H. constructor.
  - rewrite expect_bind. rewrite (rc_expect py39 (fun _ => Qc_of_Z 1)); [|intros; apply Qc_one_nonneg|by apply ones_pos].
    rewrite qsum_ones by lia.
    transitivity (qsum (map (fun x => Qc_of_Z 1 * (if decide (x ∈ A) then c * frac_in n A ^ k else 0)) (py_range n)) / Qc_of_Z n)%Qc.
    + f_equal. f_equal. apply map_ext. intros x. f_equal. rewrite expect_bind. cbn [expect]. destruct (decide (x ∈ A)) as [Hx|Hx].
      * rewrite <- IH by done. apply expect_ext. intros [l|e] _; [|done]. destruct (decide (Forall (fun x => x ∈ A) l)) as [H|H].
        -- rewrite decide_True by by constructor. done.
        -- rewrite decide_False; [done|]. intros H'. apply list.Forall_cons in H' as [_ H']. done.
      * transitivity (expect (choices_many py39 k (py_range n) (map (fun _ => Qc_of_Z 1) (py_range n))) (fun _ => 0 * 0)%Qc).
        -- apply expect_ext. intros [l|e] _; [|ring]. rewrite decide_False; [ring|]. intros H'. by apply list.Forall_cons in H' as [H' _].
        -- rewrite expect_mult. ring.
    + rewrite qsum_filter. change (frac_in n A ^ S k)%Qc with (frac_in n A * frac_in n A ^ k)%Qc. unfold frac_in at 2, py_range. unfold Qcdiv. ring.
Qed.

Lemma side_law py39 ord n (A : gset Z) sz c : set_order ord -> 0 < n ->
  expect (diverse_side py39 ord n sz (map (fun _ => Qc_of_Z 1) (py_range n)))
    (fun o => match o with Ok l => if decide (Forall (fun x => x ∈ A) l) then c else 0 | Err _ => 0 end)%Qc = (c * frac_in n A ^ (Z.to_nat sz))%Qc.
Proof.
  intros Hord Hn. rewrite <- (choices_law py39) by done. unfold diverse_side. rewrite expect_bind. apply expect_ext. intros [l|e] _; [|done]. cbn [expect].
  assert (Hiff : Forall (fun x => x ∈ A) (ord (py_set l)) <-> Forall (fun x => x ∈ A) l).
  { rewrite !list.Forall_forall. split; intros H x Hx; apply H; [apply (ord_elem ord); [done|]; by apply elem_of_list_to_set|]. apply (ord_elem ord) in Hx; [|done]. by apply elem_of_list_to_set in Hx. }
  destruct (decide (Forall (fun x => x ∈ A) l)) as [H|H], (decide (Forall (fun x => x ∈ A) (ord (py_set l)))) as [H2|H2]; try done; exfalso; naive_solver.
Qed.

Lemma size_law py39 n (A : gset Z) (c : Qc) : 3 <= n ->
  expect (diverse_size py39 n) (fun o => match o with Ok s => c * frac_in n A ^ (Z.to_nat s) | Err _ => 0 end)%Qc = (c * side_within n A)%Qc.
Proof.
  intros Hn. unfold diverse_size. rewrite (rc_expect py39 (fun x => 1 / Qc_of_Z x)%Qc); [| |by apply size_weights_pos].
  - unfold side_within. fold (frac_in n A). change Qc_sum with qsum.
    rewrite (qsum_map_ext _ (fun s => c * (1 / Qc_of_Z s * frac_in n A ^ (Z.to_nat s)))%Qc) by (intros; ring). rewrite qsum_map_mult. unfold Qcdiv. ring.
  - intros x Hx. apply elem_of_seqZ in Hx. apply Qclt_le_weak, Qcdiv_pos; [done|apply Qc_of_Z_pos; lia].
Qed.

Lemma size_const py39 n c : 3 <= n -> expect (diverse_size py39 n) (fun o => match o with Ok _ => c | Err _ => 0 end)%Qc = c.
Proof. intros Hn. apply expect_const_on; [apply proper_rc|]. intros o Ho. by apply can_size in Ho as (s & -> & _). Qed.

(** the part of a round after the rule has been drawn *)
Definition step_rest (n d l k : Z) (s : dstate) (head tail : list Z) : rand dstate :=
  let? aw := lift (halve (map (fun _ => Qc_of_Z 1) (py_range d)) head) in
  let? lw := lift (halve (map (fun _ => Qc_of_Z 1) (py_range l)) tail) in
  let? m := rand_int 0 (int_quot n k) in
  let? covered := random_sample (ds_examples s) m in
  let examples := List.filter (fun i => negb (bool_decide (i ∈ covered))) (ds_examples s) in
  let? FL := lift (rfold (cover_example (head, tail)) (ds_FL s) covered) in
  Ret (DState aw lw (ds_rules s ++ [(head, tail)]) examples FL).

Lemma proper_rest n d l k s h t : proper (step_rest n d l k s h t).
Proof.
  unfold step_rest. repeat (apply proper_bind; [first [apply proper_lift|apply proper_rand_int|apply proper_random_sample]|intros ?]). done.
Qed.

Section Law.
Context (py39 : bool) (ord : gset Z -> list Z) (Hord : set_order ord) (n d l k : Z) (Hd : 3 <= d) (Hl : 3 <= l).

Definition good_state (count : nat) (s : dstate) : Prop :=
  NoDup (ds_examples s) /\ Forall (fun i => 0 <= i < n) (ds_examples s) /\ Z.of_nat count * (int_quot n k - 1) <= zlen (ds_examples s) /\
  exists f g, ds_FL s = (mat n d f, mat n l g).

Lemma rest_can count s h t o : 1 <= int_quot n k -> good_state (S count) s -> proper_side ord d h -> proper_side ord l t ->
  can (step_rest n d l k s h t) o -> exists s', o = Ok s' /\ good_state count s' /\ ds_rules s' = ds_rules s ++ [(h, t)].
Proof.
  intros Hb (Hnd & Hr & Hlen & f & g & HFL) Hh Ht H. unfold step_rest in H.
  pose proof (proper_range _ _ _ Hord Hh) as Rh. pose proof (proper_range _ _ _ Hord Ht) as Rt.
  destruct (halve_ok h (map (fun _ => Qc_of_Z 1) (py_range d))) as (aw & Eaw). { unfold py_range. rewrite zlen_map, zlen_seqZ by lia. done. }
  destruct (halve_ok t (map (fun _ => Qc_of_Z 1) (py_range l))) as (lw & Elw). { unfold py_range. rewrite zlen_map, zlen_seqZ by lia. done. }
  rewrite Eaw, Elw in H. cbn [lift bind] in H.
  apply can_bind in H as (a & Ha & H). apply can_rand_int in Ha. destruct (Z.leb_spec (int_quot n k) 0); [lia|]. destruct Ha as (m & -> & Hm).
  apply can_bind in H as (a & Ha & H). apply can_random_sample in Ha as (cov & -> & Hc1 & Hc2 & Hc3); [|done|nia].
  rewrite HFL in H. rewrite cover_ok in H; [|apply list.Forall_forall; intros i Hi; by eapply (proj1 (list.Forall_forall _ _)) in Hr; [exact Hr|apply Hc3]|done|done].
  cbn [lift bind can] in H. subst o. eexists. split; [done|]. split; [|done]. pose proof (rest_zlen (ds_examples s) cov Hnd).
  split_and!; cbn [ds_examples ds_FL]; [by apply rest_NoDup|by apply rest_range|nia|eauto].
Qed.

Lemma rule_law (A B : gset Z) (c : Qc) (K : list Z -> list Z -> Qc) :
  (forall h t, proper_side ord d h -> proper_side ord l t -> K h t = if decide (within (h, t) (A, B)) then c else 0%Qc) ->
  expect (let? head_size := diverse_size py39 d in let? label_size := diverse_size py39 l in
          let? head := diverse_side py39 ord d head_size (map (fun _ => Qc_of_Z 1) (py_range d)) in
          let? tail := diverse_side py39 ord l label_size (map (fun _ => Qc_of_Z 1) (py_range l)) in Ret (head, tail))
    (fun o => match o with Ok ht => K (fst ht) (snd ht) | Err _ => 0%Qc end) = (side_within d A * side_within l B * c)%Qc.
Proof.
  intros HK. rewrite expect_bind. transitivity (expect (diverse_size py39 d) (fun o => match o with Ok s => side_within l B * c * frac_in d A ^ (Z.to_nat s) | Err _ => 0 end)%Qc).
  2: { rewrite size_law by done. ring. }
  apply expect_ext. intros [sh|e] Hsh; [|done]. apply can_size in Hsh as (? & E & Hsh); [|done]. injection E as <-.
  rewrite expect_bind. transitivity (expect (diverse_size py39 l) (fun o => match o with Ok s => (c * frac_in d A ^ (Z.to_nat sh)) * frac_in l B ^ (Z.to_nat s) | Err _ => 0 end)%Qc).
  2: { rewrite size_law by done. ring. }
  apply expect_ext. intros [st|e] Hst; [|done]. apply can_size in Hst as (? & E & Hst); [|done]. injection E as <-.
  rewrite expect_bind.
  transitivity (expect (diverse_side py39 ord d sh (map (fun _ => Qc_of_Z 1) (py_range d)))
    (fun o => match o with Ok l0 => if decide (Forall (fun x => x ∈ A) l0) then c * frac_in l B ^ (Z.to_nat st) else 0 | Err _ => 0 end)%Qc).
  2: { rewrite side_law by (done || lia). ring. }
  apply expect_ext. intros [h|e] Hh; [|done]. apply can_side in Hh as (? & E & Hh); [|done..]. injection E as <-.
  rewrite expect_bind.
  transitivity (expect (diverse_side py39 ord l st (map (fun _ => Qc_of_Z 1) (py_range l)))
    (fun o => match o with Ok l0 => if decide (Forall (fun x => x ∈ B) l0) then (if decide (Forall (fun x => x ∈ A) h) then c else 0) else 0 | Err _ => 0 end)%Qc).
  2: { rewrite side_law by (done || lia). destruct (decide _); ring. }
  apply expect_ext. intros [t|e] Ht; [|done]. apply can_side in Ht as (? & E & Ht); [|done..]. injection E as <-.
  cbn [expect fst snd]. rewrite HK by done. unfold within. cbn [fst snd].
  destruct (decide (Forall (fun x => x ∈ A) h)), (decide (Forall (fun x => x ∈ B) t)); destruct (decide (_ /\ _)); try done; naive_solver.
Qed.

Lemma step_split s : diverse_step py39 ord n d l k s =
  let? head_size := diverse_size py39 d in let? label_size := diverse_size py39 l in
  let? head := diverse_side py39 ord d head_size (map (fun _ => Qc_of_Z 1) (py_range d)) in
  let? tail := diverse_side py39 ord l label_size (map (fun _ => Qc_of_Z 1) (py_range l)) in step_rest n d l k s head tail.
Proof. done. Qed.

Lemma expect_step s f :
  expect (diverse_step py39 ord n d l k s) f =
  expect (let? head_size := diverse_size py39 d in let? label_size := diverse_size py39 l in
          let? head := diverse_side py39 ord d head_size (map (fun _ => Qc_of_Z 1) (py_range d)) in
          let? tail := diverse_side py39 ord l label_size (map (fun _ => Qc_of_Z 1) (py_range l)) in Ret (head, tail))
    (fun o => match o with Ok ht => expect (step_rest n d l k s (fst ht) (snd ht)) f | Err e => f (Err e) end).
Proof.
  rewrite step_split. rewrite !expect_bind. apply expect_ext. intros [sh|e] _; [|done]. rewrite !expect_bind. apply expect_ext. intros [st|e] _; [|done].
  rewrite !expect_bind. apply expect_ext. intros [h|e] _; [|done]. rewrite !expect_bind. apply expect_ext. intros [t|e] _; [|done]. done.
Qed.

Lemma loop_law count : forall ABs s pre (c : Qc) (G : result dstate -> Qc), 1 <= int_quot n k -> good_state count s -> ds_rules s = pre -> length ABs = count ->
  (forall s' tl, good_state 0 s' -> ds_rules s' = pre ++ tl -> G (Ok s') = if decide (Forall2 within tl ABs) then c else 0%Qc) ->
  (forall e, G (Err e) = 0%Qc) ->
  expect (diverse_loop py39 ord n d l k count s) G = (rules_within d l ABs * c)%Qc.
Proof.
  induction count as [|count IH]; intros ABs s pre c G Hb Hs Hpre Hlen HG Herr.
  - destruct ABs; [|done]. cbn [diverse_loop expect]. rewrite (HG s []) by (done || by rewrite app_nil_r). rewrite decide_True by constructor. cbn. ring.
  - destruct ABs as [|[A B] ABs]; [done|]. cbn [diverse_loop]. rewrite expect_bind, expect_step.
    transitivity (expect (let? head_size := diverse_size py39 d in let? label_size := diverse_size py39 l in
          let? head := diverse_side py39 ord d head_size (map (fun _ => Qc_of_Z 1) (py_range d)) in
          let? tail := diverse_side py39 ord l label_size (map (fun _ => Qc_of_Z 1) (py_range l)) in Ret (head, tail))
       (fun o => match o with Ok ht => (fun h t => if decide (within (h, t) (A, B)) then (rules_within d l ABs * c)%Qc else 0%Qc) (fst ht) (snd ht) | Err _ => 0%Qc end)).
    2: { pose (K := fun h t : list Z => if decide (within (h, t) (A, B)) then (rules_within d l ABs * c)%Qc else 0%Qc).
      etransitivity; [apply (rule_law A B (rules_within d l ABs * c)%Qc K); done|].
      change (rules_within d l ((A, B) :: ABs)) with (side_within d A * side_within l B * rules_within d l ABs)%Qc. ring. }
    apply expect_ext. intros [[h t]|e] Hht; [|by apply Herr]. cbn [fst snd].
    assert (Hsides : proper_side ord d h /\ proper_side ord l t).
    { apply can_bind in Hht as (a & Ha & Hht). apply can_size in Ha as (sh & -> & Hsh); [|done].
      apply can_bind in Hht as (a & Ha & Hht). apply can_size in Ha as (st & -> & Hst); [|done].
      apply can_bind in Hht as (a & Ha & Hht). apply can_side in Ha as (h' & -> & Hh); [|done..].
      apply can_bind in Hht as (a & Ha & Hht). apply can_side in Ha as (t' & -> & Ht); [|done..]. cbn in Hht. injection Hht as -> ->. done. }
    destruct Hsides as [Hh Ht]. apply expect_const_on; [apply proper_rest|]. intros o Ho.
    apply (rest_can count) in Ho as (s' & -> & Hs' & Hr'); [|done..]. rewrite Hpre in Hr'.
    destruct (decide (within (h, t) (A, B))) as [Hw|Hw].
    + apply (IH _ _ (pre ++ [(h, t)])); [done|done|done|cbn in Hlen; lia| |done].
      intros s2 tl Hs2 Hr2. rewrite <- app_assoc in Hr2. rewrite (HG s2 ((h, t) :: tl)) by done.
      assert (Hiff : Forall2 within ((h, t) :: tl) ((A, B) :: ABs) <-> Forall2 within tl ABs) by (rewrite list.Forall2_cons; naive_solver).
      case_decide; case_decide; naive_solver.
    + transitivity (rules_within d l ABs * 0)%Qc; [|ring]. apply (IH _ _ (pre ++ [(h, t)])); [done|done|done|cbn in Hlen; lia| |done].
      intros s2 tl Hs2 Hr2. rewrite <- app_assoc in Hr2. rewrite (HG s2 ((h, t) :: tl)) by done.
      assert (Hiff : ~ Forall2 within ((h, t) :: tl) ((A, B) :: ABs)) by (rewrite list.Forall2_cons; naive_solver).
      case_decide; case_decide; naive_solver.
Qed.
End Law.

Lemma C68_rules_independent_proof : forall (py39 : bool) (ord : gset Z -> list Z) (n d l k : Z) (noise : Qc) (ABs : list (gset Z * gset Z)),
  set_order ord -> diverse_error n d l k = None -> length ABs = Z.to_nat k ->
  expect (generate_diverse py39 ord n d l k noise)
    (fun o => match o with Ok (_, _, _, _, rules) => if decide (Forall2 within rules ABs) then 1 else 0 | Err _ => 0 end)%Qc
  = rules_within d l ABs.
Proof.
  intros py39 ord n d l k noise ABs Hord Herr Hlen. unfold diverse_error in Herr.
  destruct (Z.ltb_spec n 0) as [Hn|Hn]; [done|]. destruct (Z.ltb_spec d 0) as [Hd|Hd]; [done|]. destruct (Z.ltb_spec l 0) as [Hl|Hl]; [done|]. cbn [orb] in Herr.
  unfold generate_diverse. rewrite !np_zeros_ok by done. cbn [lift bind]. rewrite int_frac_4 by done. rewrite !mat_zeros by done.
  assert (Hnt : 0 <= 2 * n / 5 <= n) by (split; [apply Z.div_pos; lia|apply Z.div_le_upper_bound; lia]).
  set (tail_part := fun s : dstate => let? FL := add_noise n d l noise (ds_FL s) in
      let? FLt := test_loop true (2 * n / 5) k (ds_rules s) (py_range (2 * n / 5)) (mat n d (fun _ _ => 0), mat n l (fun _ _ => 0)) in
      let? FLt0 := add_noise n d l noise FLt in Ret (fst FL, snd FL, fst FLt0, snd FLt0, ds_rules s)).
  set (Phi := fun o : result synth => match o with Ok (_, _, _, _, rules) => if decide (Forall2 within rules ABs) then 1%Qc else 0%Qc | Err _ => 0%Qc end).
  assert (Hproper : forall s, proper (tail_part s)).
  { intros s. unfold tail_part. apply proper_bind; [apply proper_noise|]. intros FL. apply proper_bind; [apply proper_test|]. intros FLt. apply proper_bind; [apply proper_noise|done]. }
  assert (Hok : k <= 0 \/ 3 <= d /\ 3 <= l /\ 0 < k <= 2 * n / 5).
  { destruct (Z.leb_spec k 0); [by left|right]. destruct (Z.leb_spec d 2); [done|]. destruct (Z.leb_spec l 2); [done|]. destruct (Z.ltb_spec (2 * n / 5) k); [done|]. lia. }
  assert (Hok' : k <= 0 \/ 3 <= d /\ 3 <= l /\ 0 < k <= n) by lia.
  set (s0 := DState [] [] [] (py_range n) (mat n d (fun _ _ => 0), mat n l (fun _ _ => 0))).
  change (expect (let? s := diverse_loop py39 ord n d l k (Z.to_nat k) s0 in tail_part s) Phi = rules_within d l ABs).
  rewrite expect_bind.
  transitivity (expect (diverse_loop py39 ord n d l k (Z.to_nat k) s0)
    (fun o => match o with Ok s => if decide (Forall2 within (ds_rules s) ABs) then 1%Qc else 0%Qc | Err _ => 0%Qc end)).
  - apply expect_ext. intros o Ho. apply (train_can py39 ord Hord n d l k Hn Hok') in Ho as (s' & rules & covers & -> & (A1 & A2 & A3 & A4 & A5) & P1 & P2).
    apply expect_const_on; [done|]. intros o Ho. unfold tail_part in Ho. rewrite P2 in Ho.
    apply can_bind in Ho as (a & Ha & H). apply can_add_noise in Ha as (ff & fg & F1 & F2 & ->); [|done..].
    apply can_bind in H as (a & Ha & H). apply can_test_top in Ha as (coverst & C1 & C2 & C3 & ->); [|done| | |].
    + apply can_bind in H as (a & Ha & H). apply can_add_noise in Ha as (fft & fgt & F3 & F4 & ->); [|done..]. cbn [can fst snd] in H. subst o. done.
    + destruct Hok as [Hk|(_ & _ & Hk)]; [left|by right]. rewrite to_nat_nonpos in A1 by done. rewrite P1. by apply nil_length_inv in A1.
    + rewrite P1. unfold zlen. lia.
    + rewrite P1. eapply list.Forall_impl; [exact A2|]. intros r [H1 H2]. split; by eapply proper_range.
  - destruct Hok as [Hk|(Hd3 & Hl3 & Hk & Hkn)].
    + rewrite to_nat_nonpos in * by done. destruct ABs; [|done]. cbn [diverse_loop expect ds_rules s0]. rewrite decide_True by constructor. done.
    + rewrite (loop_law py39 ord Hord n d l k Hd3 Hl3 (Z.to_nat k) ABs s0 [] 1%Qc); [ring| | |done|done| |done].
      * rewrite int_quot_eq by lia. apply div_pos1; lia.
      * split_and!; [apply NoDup_range|by apply range_range| |by do 2 eexists]. rewrite int_quot_eq by done. cbn [ds_examples s0]. unfold py_range.
        rewrite zlen_seqZ by done. by apply div_room.
      * intros s' tl _ E. cbn [app] in E. by rewrite E.
Qed.
