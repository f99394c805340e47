(** Proofs of the property theorems of Properties/P_Advise.v. *)
From Coq Require Import QArith Qcanon.
From stdpp Require Import numbers sorting.
From Verif.Model Require Import PyBase Rand Plot.
From Verif.Spec Require Import SPlot SAdvise.
From Verif.Proofs Require Import PBase PAssign T_Plot T_Uncovered.
Open Scope Z_scope.

(** ** The associations *)
Definition first_of (block : list Z) : Z := default 0 (head block).
Definition rows_of_block (clusters : list (list Z)) (e : Z * list Z) : list (Z * list Z * Z) :=
  map (fun r => (fst e, snd e, r)) (roles clusters (first_of (snd e))).
Definition assoc_list (blocks clusters : list (list Z)) : list (Z * list Z * Z) :=
  concat (map (rows_of_block clusters) (enumerate blocks)).

Lemma rfold_append {A B} (f : list B -> A -> result (list B)) (g : A -> list B) l : (forall acc x, x ∈ l -> f acc x = Ok (acc ++ g x)) ->
  forall acc, rfold f acc l = Ok (acc ++ concat (map g l)).
Proof.
  induction l as [|x l IH]; intros Hf acc; cbn [rfold map concat]; [by rewrite app_nil_r|].
  rewrite Hf by left. cbn [rbind]. rewrite IH; [by rewrite <- app_assoc|]. intros acc' y Hy. apply Hf. by right.
Qed.

Lemma concat_singles {A B} (P : A -> Prop) `{forall x, Decision (P x)} (e : A -> B) l :
  concat (map (fun r => if bool_decide (P r) then [e r] else []) l) = map e (filter P l).
Proof.
  induction l as [|x l IH]; [done|]. cbn [map concat]. rewrite IH. rewrite filter_cons.
  destruct (decide (P x)); [by rewrite bool_decide_eq_true_2|by rewrite bool_decide_eq_false_2].
Qed.

Lemma index_cluster clusters r : 0 <= r < zlen clusters -> py_index clusters r = Ok (cluster clusters r).
Proof.
  intros Hr. destruct (py_index_in_range clusters r Hr) as (c & -> & E). unfold cluster. by rewrite E.
Qed.

Lemma associations_eq blocks clusters blocked : (forall b, b ∈ blocks -> b <> []) -> zlen blocked = zlen clusters ->
  associations blocks clusters blocked = Ok (assoc_list blocks clusters).
Proof.
  intros Hb Hl. unfold associations, assoc_list.
  rewrite (rfold_append _ (rows_of_block clusters)); [done|].
  intros acc [b block] Hin. apply elem_of_enumerate in Hin as [_ Hin].
  specialize (Hb block (elem_of_list_lookup_2 _ _ _ Hin)). destruct block as [|user block]; [done|].
  assert (py_index (user :: block) 0 = Ok user) as -> by by apply py_index_ok. cbn [rbind].
  rewrite (rfold_append _ (fun r => if bool_decide (user ∈ cluster clusters r) then [(b, user :: block, r)] else [])).
  - rewrite concat_singles, Hl. done.
  - intros acc' r Hr. apply elem_of_py_range in Hr. rewrite index_cluster by lia. cbn [rbind].
    destruct (bool_decide _); [done|]. by rewrite app_nil_r.
Qed.

Lemma item_none clusters i (ps : list (Z * list Z)) : i ∉ map fst ps ->
  List.filter (fun e : Z * list Z * Z => fst (fst e) =? i) (concat (map (rows_of_block clusters) ps)) = [].
Proof.
  induction ps as [|[b block] ps IH]; intros Hi; [done|]. cbn [map concat fst] in *. rewrite List.filter_app.
  apply not_elem_of_cons in Hi as [Hi1 Hi2]. rewrite (IH Hi2), app_nil_r. unfold rows_of_block. cbn [fst snd].
  induction (roles clusters (first_of block)) as [|r l IHl]; [done|]. cbn [map List.filter fst]. destruct (Z.eqb_spec b i); [congruence|done].
Qed.

Lemma item_rows clusters i block (ps : list (Z * list Z)) : NoDup (map fst ps) -> (i, block) ∈ ps ->
  List.filter (fun e : Z * list Z * Z => fst (fst e) =? i) (concat (map (rows_of_block clusters) ps)) = rows_of_block clusters (i, block).
Proof.
  induction ps as [|[b bl] ps IH]; intros Hnd Hin; [by apply elem_of_nil in Hin|]. cbn [map concat fst] in *. rewrite List.filter_app.
  apply list.NoDup_cons in Hnd as [Hb Hnd]. apply elem_of_cons in Hin as [E|Hin].
  - injection E as -> ->. rewrite (item_none clusters b ps Hb), app_nil_r. unfold rows_of_block. cbn [fst snd].
    induction (roles clusters (first_of bl)) as [|r l IHl]; [done|]. cbn [map List.filter fst]. rewrite Z.eqb_refl. by f_equal.
  - rewrite (IH Hnd Hin). assert (b <> i). { intros ->. apply Hb. apply elem_of_map. by exists (i, block). }
    enough (List.filter (fun e : Z * list Z * Z => fst (fst e) =? i) (rows_of_block clusters (b, bl)) = []) as -> by done.
    unfold rows_of_block. cbn [fst snd]. clear IH.
    induction (roles clusters (first_of bl)) as [|r l IHl]; [done|]. cbn [map List.filter fst]. destruct (Z.eqb_spec b i); [done|done].
Qed.

Lemma fst_enumerate {A} (l : list A) : map fst (enumerate l) = py_range (zlen l).
Proof. unfold enumerate. change (map fst) with (fmap (M:=list) (@fst Z A)). apply fst_zip. unfold py_range. rewrite seqZ_length. unfold zlen. lia. Qed.

Lemma snd_enumerate {A} (l : list A) : map snd (enumerate l) = l.
Proof. unfold enumerate. change (map snd) with (fmap (M:=list) (@snd Z A)). apply snd_zip. unfold py_range. rewrite seqZ_length. unfold zlen. lia. Qed.

Lemma item_of_assoc blocks clusters i block : 0 <= i -> blocks !! Z.to_nat i = Some block ->
  List.filter (fun e : Z * list Z * Z => fst (fst e) =? i) (assoc_list blocks clusters) = rows_of_block clusters (i, block).
Proof.
  intros Hi Hb. apply item_rows; [rewrite fst_enumerate; apply NoDup_py_range|]. by apply elem_of_enumerate.
Qed.

Lemma roles_of_rows clusters i block : map snd (rows_of_block clusters (i, block)) = roles clusters (first_of block).
Proof. unfold rows_of_block. rewrite map_map. apply map_id. Qed.

(** ** Sums over the other side *)
Lemma zsum_cons a l : zsum (a :: l) = a + zsum l.
Proof. done. Qed.
Lemma zlen_concat {A} (ls : list (list A)) : zlen (concat ls) = zsum (map zlen ls).
Proof. induction ls as [|l ls IH]; [done|]. cbn [concat map]. by rewrite zlen_app, IH, zsum_cons. Qed.
Lemma zsum_filter {A} (P : A -> Prop) `{forall x, Decision (P x)} (f : A -> Z) l :
  zsum (map f (filter P l)) = zsum (map (fun x => if decide (P x) then f x else 0) l).
Proof.
  induction l as [|x l IH]; [done|]. rewrite filter_cons. destruct (decide (P x)) eqn:E; cbn [map].
  - rewrite !(zsum_cons _ (map _ _)). rewrite E, IH. done.
  - rewrite (zsum_cons _ (map _ l)). rewrite E, IH. lia.
Qed.

Lemma zsum_concat_map {A B} (f : B -> Z) (g : A -> list B) l : zsum (map f (concat (map g l))) = zsum (map (fun x => zsum (map f (g x))) l).
Proof. induction l as [|x l IH]; [done|]. cbn [map concat]. rewrite map_app, zsum_app, IH. by rewrite zsum_cons. Qed.

Lemma first_of_in (block : list Z) : block <> [] -> first_of block ∈ block.
Proof. destruct block; [done|]. intros _. left. Qed.

Lemma cluster_in clusters r x : x ∈ cluster clusters r -> cluster clusters r ∈ clusters.
Proof. unfold cluster. destruct (clusters !! Z.to_nat r) as [c|] eqn:E; simpl; [|by intros ?%elem_of_nil]. intros _. by apply elem_of_list_lookup_2 in E. Qed.

Lemma distinct_blocks clusters r :
  zsum (map (fun block => if decide (first_of block ∈ cluster clusters r) then zlen block else 0) (createBlocks clusters)) = distinct (cluster clusters r).
Proof.
  rewrite <- (zsum_filter (fun block => first_of block ∈ cluster clusters r) zlen).
  set (bs := filter _ _). rewrite <- zlen_concat. unfold distinct, zlen. f_equal.
  apply Permutation_length. apply NoDup_Permutation.
  - unfold bs. pose proof (NoDup_blocks clusters) as Hnd. clear bs. induction (createBlocks clusters) as [|b l IH]; [constructor|].
    cbn [concat] in Hnd. apply NoDup_app in Hnd as (H1 & H2 & H3). rewrite filter_cons. destruct (decide _); [|by apply IH].
    cbn [concat]. apply NoDup_app. split; [done|]. split; [|by apply IH]. intros x Hx Hc. apply (H2 x Hx).
    apply elem_of_concat in Hc as (b' & Hb' & Hxb). apply elem_of_list_filter in Hb' as [_ Hb']. apply elem_of_concat. eauto.
  - apply NoDup_remove_dups.
  - intros x. rewrite elem_of_remove_dups, elem_of_concat. unfold bs. split.
    + intros (b & Hb & Hx). apply elem_of_list_filter in Hb as [Hf Hb].
      eapply block_in_cluster; [exact Hb|by eapply cluster_in| |exact Hf|exact Hx]. apply first_of_in. by eapply block_nonempty.
    + intros Hx. assert (Hc : x ∈ concat (createBlocks clusters)).
      { apply elem_of_blocks. exists (cluster clusters r). split; [by eapply cluster_in|done]. }
      apply elem_of_concat in Hc as (b & Hb & Hxb). exists b. split; [|done]. apply elem_of_list_filter. split; [|done].
      eapply block_in_cluster; [exact Hb|by eapply cluster_in|exact Hxb|exact Hx|]. apply first_of_in. by eapply block_nonempty.
Qed.

Lemma side_sum others (S : list Z) :
  zsum (map (fun e : Z * list Z * Z => zlen (snd (fst e))) (List.filter (fun e => bool_decide (snd e ∈ S)) (assoc_list (createBlocks others) others)))
  = zsum (map (fun r => distinct (cluster others r)) (filter (fun r => r ∈ S) (seqZ 0 (zlen others)))).
Proof.
  transitivity (zsum (map (fun e => zsum (map (fun r => if decide (r ∈ S) then if decide (first_of e ∈ cluster others r) then zlen e else 0 else 0) (seqZ 0 (zlen others)))) (createBlocks others))).
  - unfold assoc_list. rewrite <- (snd_enumerate (createBlocks others)) at 2. rewrite map_map.
    assert (forall ps : list (Z * list Z), zsum (map (fun e : Z * list Z * Z => zlen (snd (fst e))) (List.filter (fun e => bool_decide (snd e ∈ S)) (concat (map (rows_of_block others) ps)))) =
      zsum (map (fun e => zsum (map (fun r => if decide (r ∈ S) then if decide (first_of (snd e) ∈ cluster others r) then zlen (snd e) else 0 else 0) (seqZ 0 (zlen others)))) ps)) as H; [|apply H].
    intros ps. induction ps as [|[b block] ps IH]; [done|]. cbn [map concat]. rewrite List.filter_app, map_app, zsum_app, IH, zsum_cons. f_equal.
    cbn [snd]. unfold rows_of_block, roles. cbn [fst snd]. generalize (seqZ 0 (zlen others)). intros l. induction l as [|r l IHl]; [done|].
    rewrite filter_cons. cbn [map]. rewrite zsum_cons. rewrite <- IHl. destruct (decide (first_of block ∈ cluster others r)) as [Hf|Hf].
    + cbn [map List.filter snd]. destruct (decide (r ∈ S)) as [HS|HS].
      * rewrite bool_decide_eq_true_2 by done. cbn [map]. by rewrite zsum_cons.
      * rewrite bool_decide_eq_false_2 by done. lia.
    + destruct (decide (r ∈ S)); lia.
  - rewrite zsum_swap. rewrite (zsum_filter (fun r => r ∈ S)). f_equal. apply map_ext. intros r. destruct (decide (r ∈ S)).
    + apply distinct_blocks.
    + generalize (createBlocks others). intros l. induction l as [|x l IH]; [done|]. cbn [map]. rewrite zsum_cons, IH. done.
Qed.

Lemma elem_of_union_loop (ri rj : list Z) r :
  r ∈ foldl (fun acc r => if bool_decide (r ∈ acc) then acc else acc ++ [r]) ri rj <-> r ∈ ri \/ r ∈ rj.
Proof.
  revert ri. induction rj as [|x rj IH]; intros ri; cbn [foldl]; [set_solver|]. rewrite IH.
  destruct (bool_decide (x ∈ ri)) eqn:E.
  - apply bool_decide_eq_true_1 in E. set_solver.
  - set_solver.
Qed.

Lemma Qcdiv_zero (a : Qc) : (a / Qc_of_Z 0)%Qc = 0%Qc.
Proof. rewrite Z2Qc_inj_0. unfold Qcdiv. change (/ 0)%Qc with 0%Qc. ring. Qed.

Lemma jacc_eq blocks clusters others i j bi bj : zlen clusters = zlen others ->
  0 <= i -> blocks !! Z.to_nat i = Some bi -> 0 <= j -> blocks !! Z.to_nat j = Some bj ->
  jacc i j (assoc_list blocks clusters) (assoc_list (createBlocks others) others) = similarity clusters others (first_of bi) (first_of bj).
Proof.
  intros Hl Hi Hbi Hj Hbj. unfold jacc.
  rewrite (item_of_assoc blocks clusters i bi Hi Hbi), (item_of_assoc blocks clusters j bj Hj Hbj), !roles_of_rows, !side_sum.
  set (ri := roles clusters (first_of bi)). set (rj := roles clusters (first_of bj)).
  rewrite (list_filter_iff _ (fun r => r ∈ ri \/ r ∈ rj) (seqZ 0 (zlen others)) (elem_of_union_loop ri rj)).
  rewrite (list_filter_iff (fun r => r ∈ List.filter _ _) (fun r => r ∈ ri /\ r ∈ rj) (seqZ 0 (zlen others))).
  2:{ intros r. rewrite elem_of_lfilter, bool_decide_eq_true. tauto. }
  unfold similarity. fold ri rj. rewrite Hl. destruct (Z.eqb_spec (zsum (map (fun r => distinct (cluster others r)) (filter (fun r => r ∈ ri \/ r ∈ rj) (seqZ 0 (zlen others))))) 0) as [->|_]; [|done].
  symmetry. apply Qcdiv_zero.
Qed.

(** ** Importance and sorting *)
Lemma importance_eq blocks clusters left right i bi : zlen left = zlen right -> zlen clusters = zlen left -> 0 <= i -> blocks !! Z.to_nat i = Some bi ->
  importanceScore left right i (assoc_list blocks clusters) =
  Ok (zsum (map (fun r => zlen (cluster left r) * zlen (cluster right r)) (roles clusters (first_of bi)))).
Proof.
  intros Hlr Hc Hi Hb. unfold importanceScore. rewrite (item_of_assoc blocks clusters i bi Hi Hb). unfold rows_of_block. cbn [fst snd].
  enough (forall l, (forall r, r ∈ l -> 0 <= r < zlen left) -> rmap (fun e : Z * list Z * Z => roleArea left right (snd e)) (map (fun r => (i, bi, r)) l) =
    Ok (map (fun r => zlen (cluster left r) * zlen (cluster right r)) l)) as H.
  { rewrite H; [done|]. intros r Hr. unfold roles in Hr. apply elem_of_list_filter in Hr as [_ Hr]. apply elem_of_seqZ in Hr. lia. }
  intros l. induction l as [|r l IH]; intros Hr; [done|]. cbn [map rmap snd].
  unfold roleArea at 1. rewrite (index_cluster left r), (index_cluster right r) by (rewrite <- ?Hlr; apply Hr; left). cbn [rbind].
  rewrite IH; [done|]. intros r' Hr'. apply Hr. by right.
Qed.

Lemma insert_key_sorted (imp : Z -> Z) x l : StronglySorted (comes_first imp) l -> (forall y, y ∈ l -> x < y) ->
  StronglySorted (comes_first imp) (map snd (insert_key (- imp x) x (map (fun y => (- imp y, y)) l))).
Proof.
  intros Hs. induction Hs as [|y l Hs IH Hy]; intros Hx; cbn [map insert_key]; [repeat constructor|].
  assert (Hsnd : forall l, map snd (map (fun y => (- imp y, y)) l) = l) by (intros k; rewrite map_map; apply map_id).
  rewrite list.Forall_forall in Hy. destruct (Z.leb_spec (- imp x) (- imp y)) as [H|H]; cbn [map snd].
  - rewrite Hsnd. constructor; [constructor; [done|by apply list.Forall_forall]|]. apply list.Forall_forall. intros z Hz.
    assert (x < z) by by apply Hx. unfold comes_first. apply elem_of_cons in Hz as [->|Hz]; [lia|]. specialize (Hy z Hz). unfold comes_first in Hy. lia.
  - constructor; [apply IH; intros z Hz; apply Hx; by right|]. apply list.Forall_forall. intros z Hz.
    apply elem_of_map in Hz as ([k z'] & -> & Hz). rewrite insert_key_perm in Hz. apply elem_of_cons in Hz as [E|Hz].
    + injection E as -> ->. unfold comes_first. cbn [snd]. lia.
    + apply elem_of_map in Hz as (w & E & Hw). injection E as -> ->. by apply Hy.
Qed.

Lemma insert_key_keys (imp : Z -> Z) x l : exists l', insert_key (- imp x) x (map (fun y => (- imp y, y)) l) = map (fun y => (- imp y, y)) l'.
Proof.
  induction l as [|y l [l' IH]]; cbn [map insert_key]; [by exists [x]|].
  destruct (_ <=? _); [by exists (x :: y :: l)|]. exists (y :: l'). by rewrite IH.
Qed.

Lemma sort_keyed_sorted (imp : Z -> Z) l : StronglySorted Z.lt l ->
  exists l', sort_keyed (map (fun y => (- imp y, y)) l) = l' /\ StronglySorted (comes_first imp) l' /\ l' ≡ₚ l.
Proof.
  intros Hs. eexists. split; [done|]. split; [|rewrite sort_keyed_perm, map_map, map_id; done].
  unfold sort_keyed.
  enough (exists l', foldr (fun e acc => insert_key (fst e) (snd e) acc) [] (map (fun y => (- imp y, y)) l) = map (fun y => (- imp y, y)) l' /\
     l' ≡ₚ l /\ StronglySorted (comes_first imp) l') as (l' & -> & _ & H).
  { rewrite map_map, map_id. exact H. }
  induction Hs as [|x l Hs IH Hx]; cbn [map foldr fst snd]; [exists []; repeat constructor|]. destruct IH as (l' & -> & Hp & Hl').
  destruct (insert_key_keys imp x l') as (k & Ek). exists k. split; [done|].
  assert (Esnd : map snd (insert_key (- imp x) x (map (fun y => (- imp y, y)) l')) = k) by (rewrite Ek, map_map; apply map_id).
  split.
  - rewrite <- Esnd, insert_key_perm. cbn [map snd]. rewrite map_map, map_id. by rewrite Hp.
  - rewrite <- Esnd. apply insert_key_sorted; [done|]. intros y Hy. rewrite Hp in Hy. rewrite list.Forall_forall in Hx. by apply Hx.
Qed.

Lemma range_sorted n m : StronglySorted Z.lt (seqZ m n).
Proof.
  unfold seqZ. remember (Z.to_nat n) as k eqn:E. clear E. revert m. induction k as [|k IH]; intros m; [constructor|].
  cbn [seq fmap list_fmap]. constructor.
  - rewrite <- fmap_S_seq. rewrite <- list_fmap_compose. erewrite list_fmap_ext; [apply (IH (m + 1))|]. intros i x Hx. cbn. lia.
  - apply list.Forall_forall. intros x Hx. apply elem_of_list_fmap in Hx as (y & -> & Hy). apply elem_of_seq in Hy. lia.
Qed.

(** ** Where an item is put *)
Lemma index_at_ (s : list Z) i : 0 <= i < zlen s -> py_index s i = Ok (at_ s (Z.to_nat i)).
Proof. intros Hr. destruct (py_index_in_range s i Hr) as (c & -> & E). unfold at_. by rewrite E. Qed.
Lemma index_last (s : list Z) : 1 <= zlen s -> py_index s (-1) = Ok (at_ s (length s - 1)).
Proof.
  intros H. unfold py_index. cbn [Z.ltb Z.compare]. destruct (Z.ltb_spec (-1 + zlen s) 0); [lia|]. destruct (Z.leb_spec (zlen s) (-1 + zlen s)); [lia|].
  cbn [orb]. replace (Z.to_nat (-1 + zlen s)) with (length s - 1)%nat by (unfold zlen in *; lia). unfold at_.
  destruct (lookup_lt_is_Some_2 s (length s - 1)) as [y ->]; [unfold zlen in *; lia|]. done.
Qed.
Lemma at_in (s : list Z) i : (i < length s)%nat -> at_ s i ∈ s.
Proof. intros H. unfold at_. destruct (lookup_lt_is_Some_2 s i H) as [y E]. rewrite E. by apply elem_of_list_lookup_2 in E. Qed.

Lemma Qc_not_lt (a b : Qc) : ~ (a < b)%Qc -> (b < a)%Qc \/ b = a.
Proof. intros H. apply Qcnot_lt_le in H. destruct (Qc_eq_dec b a) as [->|Hne]; [by right|]. left. apply Qcnot_le_lt. intros H'. apply Hne. by apply Qcle_antisym. Qed.

Lemma max_larger (a b : Qc) : (if bool_decide (a < b)%Qc then b else a) = larger a b.
Proof.
  unfold larger. case_bool_decide as H; destruct (decide (a <= b)%Qc) as [H'|H']; try done.
  - exfalso. apply H'. by apply Qclt_le_weak.
  - destruct (Qc_not_lt a b H) as [H2| ->]; [|done]. exfalso. by apply (Qclt_not_le b a).
Qed.

Lemma min_le (c a b : Qc) : (c <= (if bool_decide (b < a)%Qc then b else a))%Qc <-> (c <= a)%Qc /\ (c <= b)%Qc.
Proof.
  case_bool_decide as H.
  - split; [intros Hc; split; [|done]|tauto]. eapply Qcle_trans; [exact Hc|]. by apply Qclt_le_weak.
  - split; [intros Hc; split; [done|]|tauto]. eapply Qcle_trans; [exact Hc|]. by apply Qcnot_lt_le.
Qed.

Lemma insert_place (sim : Z -> Z -> Qc) IA IAbar s I : (forall a b, a ∈ I :: s -> b ∈ I :: s -> jacc a b IA IAbar = sim a b) ->
  exists p, place sim s I p /\ insert_item IA IAbar s I = Ok (take p s ++ I :: drop p s).
Proof.
  intros Hsim. unfold insert_item, place. destruct (Z.ltb_spec (zlen s) 2) as [H|H].
  - exists (length s). destruct (decide _) as [_|Hx]; [|unfold zlen in H; lia]. split; [done|]. by rewrite take_ge, drop_ge by lia.
  - assert (Hn : (2 <= length s)%nat) by (unfold zlen in H; lia). destruct (decide (length s < 2)%nat) as [Hx|_]; [lia|].
    rewrite index_at_ by lia. rewrite index_last by lia. cbn [rbind].
    assert (HI : forall i, (i < length s)%nat -> jacc I (at_ s i) IA IAbar = sim I (at_ s i)).
    { intros i Hi. apply Hsim; [left|right]. by apply at_in. }
    assert (HS : forall i k, (i < length s)%nat -> (k < length s)%nat -> jacc (at_ s i) (at_ s k) IA IAbar = sim (at_ s i) (at_ s k)).
    { intros i k Hi Hk. apply Hsim; right; by apply at_in. }
    change (Z.to_nat 0) with 0%nat. rewrite !HI by lia.
    set (seen := fun (m q : nat) => q = 0%nat \/ q = length s \/ (q < 2 + m)%nat).
    set (inv := fun (l1 : list Z) (st : Z * Qc) => exists pn : nat, fst st = Z.of_nat pn /\ allowed sim s I pn /\ snd st = value sim s I pn /\ seen (length l1) pn /\
      forall q, allowed sim s I q -> seen (length l1) q -> (value sim s I q < value sim s I pn)%Qc \/ value sim s I q = value sim s I pn /\ (rank s pn <= rank s q)%nat).
    assert (V0 : value sim s I 0 = sim I (at_ s 0)) by done.
    assert (Vn : value sim s I (length s) = sim I (at_ s (length s - 1))).
    { unfold value. rewrite decide_False by lia. by rewrite decide_True. }
    assert (R0 : rank s 0 = 1%nat) by (unfold rank; by rewrite decide_False by lia).
    assert (Rn : rank s (length s) = 0%nat) by (unfold rank; by rewrite decide_True).
    match goal with |- context [rfold ?f ?st0 ?l] => destruct (rfold_inv f inv l st0) as ([p j] & -> & Hinv) end.
    + unfold inv. case_bool_decide as Hlt.
      * exists 0%nat. split_and!; [done|by left|done|by left|]. intros q Hq Hs.
        assert (q = 0%nat \/ q = length s) as [-> | ->] by (destruct Hq as [?|[?|?]], Hs as [?|[?|Hs]]; auto; simpl in Hs; lia).
        -- right. done.
        -- left. by rewrite V0, Vn.
      * exists (length s). split_and!; [done|right; by left|done|right; by left|]. intros q Hq Hs.
        assert (q = 0%nat \/ q = length s) as [-> | ->] by (destruct Hq as [?|[?|?]], Hs as [?|[?|Hs]]; auto; simpl in Hs; lia).
        -- rewrite V0, Vn, Rn. destruct (Qc_not_lt _ _ Hlt) as [?|?]; [by left|right]. split; [done|lia].
        -- right. done.
    + intros l1 i l2 [p j] El (pn & Hp & Ha & Hj & Hseen & Hbest). cbn [fst snd] in Hp, Hj.
      assert (Hi : i = 2 + zlen l1 /\ 2 <= i < zlen s).
      { assert (E : seqZ 2 (zlen s - 2) !! length l1 = Some i) by (rewrite El; by apply list_lookup_middle).
        apply lookup_seqZ in E. unfold zlen in *. lia. }
      set (k := Z.to_nat i). assert (Hk : k = (2 + length l1)%nat) by (unfold zlen in *; lia).
      assert (Hkn : (k < length s)%nat) by (unfold zlen in *; lia).
      rewrite (index_at_ s (i - 1)), (index_at_ s i) by lia. cbn [rbind]. fold k. replace (Z.to_nat (i - 1)) with (k - 1)%nat by lia.
      rewrite !HI, HS by lia. rewrite max_larger. eexists. split; [reflexivity|]. unfold inv. rewrite app_length. cbn [length].
      assert (Vk : value sim s I k = larger (sim I (at_ s (k - 1))) (sim I (at_ s k))).
      { unfold value. rewrite decide_False by lia. by rewrite decide_False by lia. }
      assert (Rk : rank s k = S k) by (unfold rank; by rewrite decide_False by lia).
      assert (Ak : allowed sim s I k <-> (sim (at_ s (k - 1)) (at_ s k) <= (if bool_decide (sim I (at_ s k) < sim I (at_ s (k - 1)))%Qc then sim I (at_ s k) else sim I (at_ s (k - 1))))%Qc).
      { rewrite min_le. unfold allowed. split; [intros [?|[?|[_ ?]]]; [lia|lia|done]|]. intros Hle. right; right. split; [lia|done]. }
      rewrite <- Vk. destruct (bool_decide (j < value sim s I k)%Qc && _) eqn:Eb.
      * apply andb_true_iff in Eb as [E1%bool_decide_eq_true_1 E2%bool_decide_eq_true_1]. exists k. split_and!; [cbn [fst]; lia|by apply Ak|done|right; right; lia|].
        intros q Hq Hs. destruct (decide (q = k)) as [->|Hne]; [by right|]. left. rewrite Hj in E1.
        assert (Hs' : seen (length l1) q) by (destruct Hs as [?|[?|?]]; [by left|right; by left|right; right; lia]).
        destruct (Hbest q Hq Hs') as [Hlt|[-> _]]; [|done]. by eapply Qclt_trans.
      * exists pn. split_and!; [done|done|done|destruct Hseen as [?|[?|?]]; [by left|right; by left|right; right; lia]|].
        intros q Hq Hs. destruct (decide (q = k)) as [->|Hne].
        -- apply Ak in Hq. apply andb_false_iff in Eb as [Eb|Eb]; apply bool_decide_eq_false_1 in Eb; [|done]. rewrite Hj in Eb.
           destruct (Qc_not_lt _ _ Eb) as [?|?]; [by left|right]. split; [done|]. rewrite Rk.
           destruct Hseen as [-> | [-> | Hlt]]; [rewrite R0; lia|rewrite Rn; lia|]. unfold rank. destruct (decide _); lia.
        -- apply Hbest; [done|]. destruct Hs as [?|[?|?]]; [by left|right; by left|right; right; lia].
    + cbn [rbind]. destruct Hinv as (pn & Hp & Ha & _ & _ & Hbest). cbn [fst] in Hp. exists pn. split.
      * split; [done|]. intros q Hq. apply Hbest; [done|]. rewrite seqZ_length.
        destruct Hq as [?|[?|[? _]]]; [by left|right; by left|right; right; unfold zlen; lia].
      * unfold list_insert. by rewrite Hp, Nat2Z.id.
Qed.

Lemma arranged_perm sim items s : arranged sim items s -> s ≡ₚ items.
Proof. induction 1 as [|items s I p Ha IH Hp]; [done|]. rewrite <- Permutation_middle, take_drop, IH. apply Permutation_cons_append. Qed.

Lemma arrange_all (sim : Z -> Z -> Qc) IA IAbar items : (forall a b, a ∈ items -> b ∈ items -> jacc a b IA IAbar = sim a b) ->
  exists s, rfold (insert_item IA IAbar) [] items = Ok s /\ arranged sim items s.
Proof.
  intros Hsim. destruct (rfold_inv (insert_item IA IAbar) (fun l s => arranged sim l s) items []) as (s & E & H).
  - constructor.
  - intros l1 I l2 s El Ha. destruct (insert_place sim IA IAbar s I) as (p & Hp & E).
    + intros a b Hsa Hsb. apply Hsim; rewrite El; [clear Hsb; rename Hsa into Hx|clear Hsa; rename Hsb into Hx];
        apply elem_of_app; apply elem_of_cons in Hx as [->|Hx]; try (right; left); left; by rewrite <- (arranged_perm _ _ _ Ha).
    + exists (take p s ++ I :: drop p s). split; [done|by constructor].
  - eauto.
Qed.

Lemma sortSet_eq clusters others left right : zlen left = zlen right -> zlen clusters = zlen left -> zlen others = zlen left ->
  let blocks := createBlocks clusters in
  let imp b := zsum (map (fun r => zlen (cluster left r) * zlen (cluster right r)) (roles clusters (member blocks b))) in
  exists items s, sortSet left right (py_range (zlen blocks)) (assoc_list blocks clusters) (assoc_list (createBlocks others) others) = Ok s /\
    items ≡ₚ seqZ 0 (zlen blocks) /\ StronglySorted (comes_first imp) items /\
    arranged (fun a b => similarity clusters others (member blocks a) (member blocks b)) items s.
Proof.
  intros Hlr Hc Ho blocks imp. unfold sortSet, sorted_by.
  assert (Hblk : forall i, i ∈ py_range (zlen blocks) -> exists b, 0 <= i /\ blocks !! Z.to_nat i = Some b /\ member blocks i = first_of b).
  { intros i Hi. apply elem_of_py_range in Hi. destruct (py_index_in_range blocks i Hi) as (b & _ & E). exists b.
    split_and!; [lia|done|]. unfold member, first_of. by rewrite E. }
  assert (Hk : rmap (fun x => let! k := (let! s := importanceScore left right x (assoc_list blocks clusters) in Ok (- s)) in Ok (k, x)) (py_range (zlen blocks))
    = Ok (map (fun y => (- imp y, y)) (py_range (zlen blocks)))).
  { rewrite <- rmap_ok_map. apply rmap_ext. intros x Hx. destruct (Hblk x Hx) as (b & Hx0 & Hb & Hm).
    rewrite (importance_eq blocks clusters left right x b) by done. unfold imp. by rewrite Hm. }
  rewrite Hk. cbn [rbind]. destruct (sort_keyed_sorted imp (py_range (zlen blocks)) (range_sorted _ _)) as (items & -> & Hs & Hp).
  destruct (arrange_all (fun a b => similarity clusters others (member blocks a) (member blocks b)) (assoc_list blocks clusters) (assoc_list (createBlocks others) others) items) as (s & E & Ha).
  { intros a b Hina Hinb. rewrite Hp in Hina, Hinb. destruct (Hblk a Hina) as (ba & Ha0 & Hba & ->). destruct (Hblk b Hinb) as (bb & Hb0 & Hbb & ->).
    apply jacc_eq; try done. lia. }
  exists items, s. split_and!; try done.
Qed.

Lemma roles_range clusters x r : r ∈ roles clusters x <-> 0 <= r < zlen clusters /\ x ∈ cluster clusters r.
Proof. unfold roles. rewrite elem_of_list_filter, elem_of_seqZ. lia || (rewrite Z.add_0_l; tauto). Qed.

Lemma same_block_roles clusters b x y : b ∈ createBlocks clusters -> x ∈ b -> y ∈ b -> roles clusters x = roles clusters y.
Proof.
  intros Hb Hx Hy. unfold roles. apply list_filter_iff. intros r. split; intros Hin.
  - eapply block_in_cluster; [exact Hb|by eapply cluster_in|exact Hx|done|done].
  - eapply block_in_cluster; [exact Hb|by eapply cluster_in|exact Hy|done|done].
Qed.

Lemma distinct_pos (l : list Z) : l <> [] -> 0 < distinct l.
Proof.
  intros Hl. destruct l as [|x l]; [done|]. unfold distinct.
  assert (H : x ∈ remove_dups (x :: l)) by (apply elem_of_remove_dups; left).
  destruct (remove_dups (x :: l)) as [|y k]; [by apply elem_of_nil in H|]. unfold zlen. simpl. lia.
Qed.
Lemma distinct_nonneg (l : list Z) : 0 <= distinct l.
Proof. apply zlen_nonneg. Qed.

Lemma zsum_filter_le {A} (P Q : A -> Prop) `{forall x, Decision (P x)} `{forall x, Decision (Q x)} (f : A -> Z) l :
  (forall x, 0 <= f x) -> (forall x, P x -> Q x) -> zsum (map f (filter P l)) <= zsum (map f (filter Q l)).
Proof.
  intros Hf HPQ. induction l as [|x l IH]; [done|]. rewrite !filter_cons. specialize (Hf x).
  destruct (decide (P x)), (decide (Q x)); cbn [map]; rewrite ?zsum_cons; try lia. exfalso. auto.
Qed.

Lemma zsum_filter_eq {A} (P Q : A -> Prop) `{forall x, Decision (P x)} `{forall x, Decision (Q x)} (f : A -> Z) l :
  (forall x, 0 <= f x) -> (forall x, P x -> Q x) -> zsum (map f (filter P l)) = zsum (map f (filter Q l)) ->
  forall x, x ∈ l -> Q x -> 0 < f x -> P x.
Proof.
  intros Hf HPQ. induction l as [|y l IH]; intros E x Hx HQ Hpos; [by apply elem_of_nil in Hx|].
  pose proof (zsum_filter_le P Q f l Hf HPQ) as Hle. rewrite !filter_cons in E. pose proof (Hf y) as Hy.
  apply elem_of_cons in Hx as [->|Hx].
  - destruct (decide (P y)); [done|]. destruct (decide (Q y)); [|done]. cbn [map] in E. rewrite zsum_cons in E. lia.
  - apply IH; try done. destruct (decide (P y)), (decide (Q y)); cbn [map] in E; rewrite ?zsum_cons in E; try lia. exfalso. auto.
Qed.

Lemma Qc_of_Z_lt a b : a < b -> (Qc_of_Z a < Qc_of_Z b)%Qc.
Proof. by rewrite Z2Qc_inj_lt. Qed.

Lemma similarity_facts clusters others x y : zlen clusters = zlen others -> (forall c, c ∈ others -> c <> []) -> roles clusters x <> [] ->
  (0 <= similarity clusters others x y)%Qc /\ (similarity clusters others x y <= 1)%Qc /\
  (similarity clusters others x y = 1%Qc <-> forall r, r ∈ roles clusters x <-> r ∈ roles clusters y) /\
  (similarity clusters others x y = 0%Qc <-> forall r, r ∈ roles clusters x -> r ∉ roles clusters y).
Proof.
  intros Hl Hne Hx. unfold similarity.
  set (P := fun r => r ∈ roles clusters x /\ r ∈ roles clusters y). set (Q := fun r => r ∈ roles clusters x \/ r ∈ roles clusters y).
  set (f := fun r => distinct (cluster others r)). set (l := seqZ 0 (zlen clusters)).
  assert (Hf : forall r, 0 <= f r) by (intros; apply distinct_nonneg).
  assert (Hpos : forall r, 0 <= r < zlen clusters -> 0 < f r).
  { intros r Hr. apply distinct_pos. apply Hne. rewrite Hl in Hr. unfold cluster. destruct (py_index_in_range others r Hr) as (c & _ & E).
    rewrite E. by apply elem_of_list_lookup_2 in E. }
  assert (HPQ : forall r, P r -> Q r) by (unfold P, Q; tauto).
  assert (Hrange : forall r, Q r -> r ∈ l /\ 0 < f r).
  { intros r [Hr|Hr]; apply roles_range in Hr as [Hr _]; (split; [apply elem_of_seqZ; lia|by apply Hpos]). }
  set (N := zsum (map f (filter P l))). set (U := zsum (map f (filter Q l))).
  assert (HN0 : 0 <= N) by (apply zsum_map_nonneg; intros; apply Hf).
  assert (HNU : N <= U) by (by apply zsum_filter_le).
  assert (HU : 0 < U).
  { assert (exists r, r ∈ roles clusters x) as [r Hr] by (destruct (roles clusters x) as [|r rs]; [done|exists r; left]). assert (HQ : Q r) by by left.
    destruct (Hrange r HQ) as [Hin Hp]. apply (zsum_pos f _ r); [intros; apply Hf| |done]. by apply elem_of_list_filter. }
  assert (HUq : (0 < Qc_of_Z U)%Qc) by (rewrite <- Z2Qc_inj_0; by apply Qc_of_Z_lt).
  assert (HUn : Qc_of_Z U <> 0%Qc) by (intros E; rewrite E in HUq; by apply (irreflexivity Qclt 0%Qc)).
  assert (Hdiv : forall a b : Z, (Qc_of_Z a / Qc_of_Z U = Qc_of_Z b / Qc_of_Z U)%Qc -> a = b).
  { intros a b E. apply Z2Qc_inj. assert ((Qc_of_Z a / Qc_of_Z U) * Qc_of_Z U = (Qc_of_Z b / Qc_of_Z U) * Qc_of_Z U)%Qc as E' by (by rewrite E).
    unfold Qcdiv in E'. rewrite <- !Qcmult_assoc, (Qcmult_comm (/ _)), Qcmult_inv_r, !Qcmult_1_r in E' by done. done. }
  assert (E1 : (Qc_of_Z U / Qc_of_Z U)%Qc = 1%Qc) by (by apply Qcmult_inv_r).
  assert (E0 : (Qc_of_Z 0 / Qc_of_Z U)%Qc = 0%Qc) by (rewrite Z2Qc_inj_0; unfold Qcdiv; ring).
  assert (Hmono : forall a b, a <= b -> (Qc_of_Z a / Qc_of_Z U <= Qc_of_Z b / Qc_of_Z U)%Qc).
  { intros a b Hab. unfold Qcdiv. apply Qcmult_le_compat_r; [by rewrite <- Z2Qc_inj_le|]. apply Qclt_le_weak. apply Qcnot_le_lt. intros Hc. apply (Qclt_not_le 0 1); [done|]. rewrite <- (Qcmult_inv_r _ HUn). rewrite <- (Qcmult_0_r (Qc_of_Z U)). rewrite !(Qcmult_comm (Qc_of_Z U)). apply Qcmult_le_compat_r; [done|by apply Qclt_le_weak]. }
  split_and!.
  - rewrite <- E0. by apply Hmono.
  - rewrite <- E1. by apply Hmono.
  - rewrite <- E1. split.
    + intros E%Hdiv r. assert (Hall := zsum_filter_eq P Q f l Hf HPQ E).
      split; intros Hr.
      * assert (HQ : Q r) by by left. destruct (Hrange r HQ) as [Hin Hp]. by destruct (Hall r Hin HQ Hp).
      * assert (HQ : Q r) by by right. destruct (Hrange r HQ) as [Hin Hp]. by destruct (Hall r Hin HQ Hp).
    + intros Hr. enough (N = U) as -> by done. unfold N, U. f_equal. f_equal. apply list_filter_iff. intros r. unfold P, Q. rewrite Hr. tauto.
  - rewrite <- E0. split.
    + intros E%Hdiv r Hr1 Hr2. assert (HQ : Q r) by by left. destruct (Hrange r HQ) as [Hin Hp].
      assert (0 < N); [|lia]. apply (zsum_pos f _ r); [intros; apply Hf| |done]. by apply elem_of_list_filter.
    + intros Hr. enough (N = 0) as -> by done. unfold N. enough (filter P l = []) as -> by done.
      destruct (filter P l) as [|r k] eqn:E; [done|]. assert (Hin : r ∈ filter P l) by (rewrite E; left).
      apply elem_of_list_filter in Hin as [[H1 H2] _]. by destruct (Hr r H1).
Qed.

Lemma sorted_impl {A} (R S : A -> A -> Prop) l : (forall a b, R a b -> S a b) -> StronglySorted R l -> StronglySorted S l.
Proof. intros H. induction 1 as [|x l Hs IH Hx]; constructor; [done|]. eapply list.Forall_impl; [exact Hx|]. apply H. Qed.

Lemma kept_nonempty left right : (forall c, c ∈ map fst (kept left right) -> c <> []) /\ (forall c, c ∈ map snd (kept left right) -> c <> []).
Proof. split; intros c Hc; apply elem_of_map in Hc as ([a b] & -> & Hin); apply elem_of_list_filter in Hin as [[H1 H2] _]; done. Qed.

Lemma C83_similarity_proof : forall (clusters others cb cb' : list (list Z)) UA PA i j bi bj x y,
  zlen clusters = zlen others -> (forall c, c ∈ others -> c <> []) -> zlen cb = zlen clusters -> zlen cb' = zlen others ->
  associations (createBlocks clusters) clusters cb = Ok UA -> associations (createBlocks others) others cb' = Ok PA ->
  0 <= i -> createBlocks clusters !! Z.to_nat i = Some bi -> x ∈ bi -> 0 <= j -> createBlocks clusters !! Z.to_nat j = Some bj -> y ∈ bj ->
  let s := jacc i j UA PA in
  s = similarity clusters others x y /\ jacc j i UA PA = s /\ (0 <= s)%Qc /\ (s <= 1)%Qc /\
  (s = 1%Qc <-> forall r, r ∈ roles clusters x <-> r ∈ roles clusters y) /\
  (s = 0%Qc <-> forall r, r ∈ roles clusters x -> r ∉ roles clusters y).
Proof.
  intros clusters others cb cb' UA PA i j bi bj x y Hl Hne Hcb Hcb' HUA HPA Hi Hbi Hx Hj Hbj Hy s.
  rewrite associations_eq in HUA; [|apply block_nonempty|done]. rewrite associations_eq in HPA; [|apply block_nonempty|done].
  injection HUA as <-. injection HPA as <-.
  assert (Hib : bi ∈ createBlocks clusters) by (by apply elem_of_list_lookup_2 in Hbi).
  assert (Hjb : bj ∈ createBlocks clusters) by (by apply elem_of_list_lookup_2 in Hbj).
  assert (Ex : roles clusters (first_of bi) = roles clusters x) by (apply (same_block_roles clusters bi); [done|apply first_of_in; by eapply block_nonempty|done]).
  assert (Ey : roles clusters (first_of bj) = roles clusters y) by (apply (same_block_roles clusters bj); [done|apply first_of_in; by eapply block_nonempty|done]).
  assert (Es : s = similarity clusters others x y).
  { unfold s. rewrite (jacc_eq _ _ _ i j bi bj) by done. unfold similarity. by rewrite Ex, Ey. }
  assert (Hr : roles clusters x <> []).
  { assert (Hc : x ∈ concat (createBlocks clusters)) by (apply elem_of_concat; eauto). apply elem_of_blocks in Hc as (c & Hc & Hxc).
    apply elem_of_list_lookup in Hc as [k Hk]. intros E. assert (Hin : Z.of_nat k ∈ roles clusters x); [|rewrite E in Hin; by apply elem_of_nil in Hin].
    apply roles_range. split; [apply lookup_lt_Some in Hk; unfold zlen; lia|]. unfold cluster. by rewrite Nat2Z.id, Hk. }
  split; [done|]. split.
  - unfold s. rewrite (jacc_eq _ _ _ i j bi bj), (jacc_eq _ _ _ j i bj bi) by done. unfold similarity. f_equal; f_equal; f_equal; f_equal; apply list_filter_iff; tauto.
  - rewrite Es. by apply similarity_facts.
Qed.


Lemma C83_adviser_proof : forall (shL shR : list Z -> list Z) (left right A : list (list Z)) (rows cols : Z) m m',
  (forall l, shL l ≡ₚ l) -> (forall l, shR l ≡ₚ l) -> zlen left <= zlen right ->
  new_blockmat shL shR left right A rows cols = Ok m -> order m = Ok m' ->
  let ordered clusters others s :=
    let blocks := createBlocks clusters in
    exists items, items ≡ₚ seqZ 0 (zlen blocks) /\
      StronglySorted (comes_first (fun b => importance clusters others (member blocks b))) items /\
      arranged (fun a b => similarity clusters others (member blocks a) (member blocks b)) items s in
  let ls := map fst (kept left right) in
  let rs := map snd (kept left right) in
  ordered ls rs (bm_left_perm m') /\ ordered rs ls (bm_right_perm m').
Proof.
  intros shL shR left right A rows cols m m' HL HR Hlr Hm Ho ordered ls rs.
  destruct (new_blockmat_ok shL shR left right A rows cols HL HR Hlr) as (m0 & E & H1 & H2 & H3 & H4 & H5 & H6 & H7 & H8 & H9 & _).
  rewrite Hm in E. injection E as <-. unfold order in Ho. rewrite H6, H7, H4, H5 in Ho. fold ls rs in Ho.
  rewrite associations_eq in Ho; [|apply block_nonempty|by rewrite H8, H4].
  rewrite associations_eq in Ho; [|apply block_nonempty|by rewrite H9, H5]. cbn [rbind] in Ho.
  assert (Hz : zlen ls = zlen rs) by (unfold ls, rs; by rewrite !zlen_map).
  destruct (sortSet_eq ls rs ls rs Hz eq_refl ltac:(lia)) as (items & s & Es & Hp & Hs & Ha).
  destruct (sortSet_eq rs ls ls rs Hz ltac:(lia) eq_refl) as (items' & s' & Es' & Hp' & Hs' & Ha').
  rewrite Es, Es' in Ho. cbn [rbind] in Ho. injection Ho as <-. cbn [bm_left_perm bm_right_perm]. split.
  - exists items. done.
  - exists items'. split_and!; [done| |done]. eapply sorted_impl; [|exact Hs'].
    intros a b. unfold comes_first, importance.
    assert (forall x, zsum (map (fun r => zlen (cluster ls r) * zlen (cluster rs r)) (roles rs x)) = zsum (map (fun r => zlen (cluster rs r) * zlen (cluster ls r)) (roles rs x))) as Hcomm.
    { intros x. f_equal. apply map_ext. intros r. lia. }
    by rewrite !Hcomm.
Qed.


Lemma C83_three_proof : forall (shL shR : list Z -> list Z) (left right A : list (list Z)) (rows cols : Z) m m',
  (forall l, shL l ≡ₚ l) -> (forall l, shR l ≡ₚ l) -> zlen left <= zlen right ->
  new_blockmat shL shR left right A rows cols = Ok m -> order m = Ok m' ->
  let outside clusters others s :=
    let imp b := importance clusters others (member (createBlocks clusters) b) in
    zlen (createBlocks clusters) = 3 ->
    exists a b c, comes_first imp a b /\ comes_first imp b c /\ (s = [a; b; c] \/ s = [c; a; b]) in
  outside (map fst (kept left right)) (map snd (kept left right)) (bm_left_perm m') /\
  outside (map snd (kept left right)) (map fst (kept left right)) (bm_right_perm m').
Proof.
  intros shL shR left right A rows cols m m' HL HR Hlr Hm Ho outside.
  destruct (C83_adviser_proof shL shR left right A rows cols m m' HL HR Hlr Hm Ho) as [H1 H2].
  assert (H : forall clusters others s, (exists items, items ≡ₚ seqZ 0 (zlen (createBlocks clusters)) /\
      StronglySorted (comes_first (fun b => importance clusters others (member (createBlocks clusters) b))) items /\
      arranged (fun a b => similarity clusters others (member (createBlocks clusters) a) (member (createBlocks clusters) b)) items s) -> outside clusters others s); [|split; by apply H].
  unfold outside. clear. intros clusters others s (items & Hp & Hs & Ha) H3. rewrite H3 in Hp. apply Permutation_length in Hp. change (length (seqZ 0 3)) with 3%nat in Hp.
  destruct items as [|a [|b [|c [|? ?]]]]; try (cbn in Hp; lia). exists a, b, c.
  inversion Hs as [|? ? Hs1 Hf1]; subst. inversion Hs1 as [|? ? Hs2 Hf2]; subst.
  split; [by inversion Hf1|]. split; [by inversion Hf2|].
  inversion Ha as [E|items1 s1 I1 p1 Ha1 Hp1 E E2]; subst. change [a; b; c] with ([a; b] ++ [c]) in E. apply app_inj_tail in E as [-> ->].
  inversion Ha1 as [E|items2 s2 I2 p2 Ha2 Hp2 E E3]; subst. change [a; b] with ([a] ++ [b]) in E. apply app_inj_tail in E as [-> ->].
  inversion Ha2 as [E|items3 s3 I3 p3 Ha3 Hp3 E E4]; subst. change [a] with ([] ++ [a]) in E. apply app_inj_tail in E as [-> ->].
  inversion Ha3 as [E|? ? ? ? ? ? E E5]; subst; [|by apply app_nil in E as [_ E]].
  unfold place in Hp3. destruct (decide _) as [_|Hx] in Hp3; [|cbn in Hx; lia]. subst p3. cbn in *.
  unfold place in Hp2. destruct (decide _) as [_|Hx] in Hp2; [|cbn in Hx; lia]. subst p2. cbn in *.
  unfold place in Hp1. destruct (decide _) as [Hx|_] in Hp1; [cbn in Hx; lia|].
  destruct Hp1 as [[-> | [-> | [Hlt _]]] _]; cbn in *; [by right|by left|lia].
Qed.
