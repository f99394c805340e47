(** Proofs of the property theorems of Properties/P_Plot.v. *)
From Verif.Model Require Import PyBase Rand Plot.
From Verif.Spec Require Import SPlot.
Open Scope Z_scope.
From Verif.Proofs Require Import PBase PAssign.
Open Scope Z_scope.

(** ** Grouping *)
Definition group {K V} `{EqDecision K} (ps : list (K * V)) : list (K * list V) :=
  foldl (fun d e => dict_append d (fst e) (snd e)) [] ps.

Lemma fst_update {K V} `{EqDecision K} (d : list (K * list V)) k v :
  map fst (map (fun e => if decide (fst e = k) then (fst e, snd e ++ [v]) else e) d) = map fst d.
Proof. rewrite map_map. apply map_ext. intros [k' vs]. by destruct (decide _). Qed.

Lemma dict_append_NoDup {K V} `{EqDecision K} (d : list (K * list V)) k v :
  NoDup (map fst d) -> NoDup (map fst (dict_append d k v)).
Proof.
  intros H. unfold dict_append. destruct (decide (k ∈ map fst d)) as [Hk|Hk].
  - rewrite bool_decide_eq_true_2 by done. by rewrite fst_update.
  - rewrite bool_decide_eq_false_2 by done. rewrite map_app. apply NoDup_app. split; [done|]. split; [|apply NoDup_singleton].
    intros x Hx Hin. apply elem_of_list_singleton in Hin as ->. done.
Qed.

Lemma elem_of_dict_append {K V} `{EqDecision K} (d : list (K * list V)) k v k' vs : NoDup (map fst d) ->
  (k', vs) ∈ dict_append d k v <->
  (k' <> k /\ (k', vs) ∈ d) \/ (k' = k /\ ((exists vs0, (k, vs0) ∈ d /\ vs = vs0 ++ [v]) \/ (k ∉ map fst d /\ vs = [v]))).
Proof.
  intros Hn. unfold dict_append. destruct (decide (k ∈ map fst d)) as [Hk|Hk].
  - rewrite bool_decide_eq_true_2 by done. rewrite elem_of_map. split.
    + intros ([k0 vs0] & E & Hin). cbn [fst snd] in E. destruct (decide (k0 = k)) as [->|Hne].
      * injection E as -> ->. right. split; [done|]. left. eauto.
      * injection E as -> ->. left. done.
    + intros [[Hne Hin]|[-> [(vs0 & Hin & ->)|[Hno _]]]]; [| |done].
      * exists (k', vs). cbn [fst]. by rewrite decide_False.
      * exists (k, vs0). cbn [fst snd]. by rewrite decide_True.
  - rewrite bool_decide_eq_false_2 by done. rewrite elem_of_app, elem_of_list_singleton. split.
    + intros [Hin|[= -> ->]]; [|tauto]. left. split; [|done]. intros ->. apply Hk. apply elem_of_map. exists (k, vs). done.
    + intros [[Hne Hin]|[-> [(vs0 & Hin & ->)|[Hno ->]]]]; [by left| |by right].
      exfalso. apply Hk. apply elem_of_map. exists (k, vs0). done.
Qed.

Lemma dict_append_concat {K V} `{EqDecision K} (d : list (K * list V)) k v : NoDup (map fst d) ->
  concat (map snd (dict_append d k v)) ≡ₚ concat (map snd d) ++ [v].
Proof.
  intros Hn. unfold dict_append. destruct (decide (k ∈ map fst d)) as [Hk|Hk].
  - rewrite bool_decide_eq_true_2 by done. induction d as [|[k0 vs0] d IH]; [inversion Hk|].
    cbn [map] in *. apply list.NoDup_cons in Hn as [Hn0 Hn]. cbn [fst snd] in *. destruct (decide (k0 = k)) as [->|Hne].
    + cbn [concat snd]. assert (map (fun e => if decide (fst e = k) then (fst e, snd e ++ [v]) else e) d = d) as ->.
      { transitivity (map id d); [|apply map_id]. apply map_ext_in. intros [k1 v1] Hin. cbn [fst]. rewrite decide_False; [done|].
        intros ->. apply Hn0. apply elem_of_map. exists (k, v1). split; [done|by apply elem_of_list_In]. }
      rewrite <- !app_assoc. f_equiv. apply Permutation_app_comm.
    + cbn [concat snd]. rewrite IH; [by rewrite app_assoc|done|]. apply elem_of_cons in Hk as [->|Hk]; done.
  - rewrite bool_decide_eq_false_2 by done. by rewrite map_app, concat_app.
Qed.

Lemma group_snoc {K V} `{EqDecision K} (ps : list (K * V)) e : group (ps ++ [e]) = dict_append (group ps) (fst e) (snd e).
Proof. unfold group. by rewrite foldl_app. Qed.

Lemma group_NoDup {K V} `{EqDecision K} (ps : list (K * V)) : NoDup (map fst (group ps)).
Proof. induction ps as [|e ps IH] using rev_ind; [constructor|]. rewrite group_snoc. by apply dict_append_NoDup. Qed.

Lemma group_concat {K V} `{EqDecision K} (ps : list (K * V)) : concat (map snd (group ps)) ≡ₚ map snd ps.
Proof.
  induction ps as [|e ps IH] using rev_ind; [done|]. rewrite group_snoc, dict_append_concat by apply group_NoDup. by rewrite IH, map_app.
Qed.

Definition values {K V} `{EqDecision K} (k : K) (ps : list (K * V)) : list V :=
  map snd (List.filter (fun e => bool_decide (fst e = k)) ps).

Lemma values_app {K V} `{EqDecision K} (k : K) (ps qs : list (K * V)) : values k (ps ++ qs) = values k ps ++ values k qs.
Proof. unfold values. by rewrite List.filter_app, map_app. Qed.

Lemma values_nil {K V} `{EqDecision K} (k : K) (ps : list (K * V)) : k ∉ map fst ps -> values k ps = [].
Proof.
  induction ps as [|[k0 v] ps IH]; intros Hk; [done|]. unfold values in *. cbn [map List.filter fst] in *. rewrite not_elem_of_cons in Hk. destruct Hk as [H1 H2].
  rewrite bool_decide_eq_false_2 by congruence. by apply IH.
Qed.

Lemma elem_of_values {K V} `{EqDecision K} (k : K) (ps : list (K * V)) v : v ∈ values k ps <-> (k, v) ∈ ps.
Proof.
  unfold values. rewrite elem_of_map. split.
  - intros ([k0 v0] & -> & Hin). apply elem_of_lfilter in Hin as [E Hin]. apply bool_decide_eq_true in E. cbn in *. by subst.
  - intros Hin. exists (k, v). split; [done|]. apply elem_of_lfilter. split; [|done]. by apply bool_decide_eq_true.
Qed.

Lemma elem_of_group {K V} `{EqDecision K} (ps : list (K * V)) k vs :
  (k, vs) ∈ group ps <-> k ∈ map fst ps /\ vs = values k ps.
Proof.
  revert k vs. induction ps as [|[k1 v] ps IH] using rev_ind; intros k vs.
  - split; [intros H; inversion H|intros [H _]; inversion H].
  - rewrite group_snoc, elem_of_dict_append by apply group_NoDup. cbn [fst snd].
    assert (Hk : k1 ∉ map fst (group ps) <-> k1 ∉ map fst ps).
    { rewrite !elem_of_map. split; intros Hno (e & -> & Hin); apply Hno.
      - exists (fst e, values (fst e) ps). split; [done|]. apply IH. split; [|done]. apply elem_of_map. eauto.
      - destruct e as [k0 v0]. apply IH in Hin as [Hin _]. apply elem_of_map in Hin as (e & E & Hin). exists e. done. }
    rewrite map_app, values_app, elem_of_app. cbn [map fst]. rewrite elem_of_list_singleton.
    destruct (decide (k = k1)) as [->|Hne].
    + assert (values k1 [(k1, v)] = [v]) as -> by (unfold values; cbn [List.filter fst]; rewrite bool_decide_eq_true_2 by done; done).
      split.
      * intros [[? _]|[_ [(vs0 & Hin & ->)|[Hno ->]]]]; [done| |].
        -- apply IH in Hin as [Hin ->]. tauto.
        -- apply Hk in Hno. rewrite values_nil by done. tauto.
      * intros [_ ->]. right. split; [done|]. destruct (decide (k1 ∈ map fst ps)) as [Hin|Hno].
        -- left. exists (values k1 ps). split; [|done]. by apply IH.
        -- right. rewrite values_nil by done. tauto.
    + assert (values k [(k1, v)] = []) as -> by (apply values_nil; cbn; set_solver).
      rewrite app_nil_r. split.
      * intros [[_ Hin]|[? _]]; [|done]. apply IH in Hin as [Hin ->]. tauto.
      * intros [[Hin|Hin] ->]; [|done]. left. split; [done|]. by apply IH.
Qed.

(** ** Indices and their clusters *)
Definition cluster_pairs (clusters : list (list Z)) : list (Z * Z) :=
  concat (map (fun e => map (fun x => (x, fst e)) (snd e)) (enumerate clusters)).

Lemma itc_group clusters : index_to_clusters clusters = group (cluster_pairs clusters).
Proof.
  unfold index_to_clusters, cluster_pairs, group. generalize (enumerate clusters) as l.
  intros l. generalize (@nil (Z * list Z)). induction l as [|[i c] l IH]; intros d; [done|].
  cbn [foldl map concat fst snd]. rewrite foldl_app, IH. f_equal. clear IH. revert d. induction c as [|x c IH]; intros d; [done|]. cbn [foldl map fst snd]. apply IH.
Qed.

Lemma pairs_snoc clusters c : cluster_pairs (clusters ++ [c]) = cluster_pairs clusters ++ map (fun x => (x, zlen clusters)) c.
Proof. unfold cluster_pairs. rewrite enumerate_snoc, map_app, concat_app. cbn [map concat fst snd]. by rewrite app_nil_r. Qed.

Lemma elem_of_pairs clusters x i : (x, i) ∈ cluster_pairs clusters <-> 0 <= i /\ exists c, clusters !! Z.to_nat i = Some c /\ x ∈ c.
Proof.
  unfold cluster_pairs. rewrite elem_of_concat. split.
  - intros (l & Hl & Hx). apply elem_of_map in Hl as ([j c] & -> & Hin). apply elem_of_enumerate in Hin as [Hj Hin].
    apply elem_of_map in Hx as (y & [= -> ->] & Hy). cbn in *. eauto.
  - intros (Hi & c & Hc & Hx). exists (map (fun y => (y, i)) c). split.
    + apply elem_of_map. exists (i, c). split; [done|]. by apply elem_of_enumerate.
    + apply elem_of_map. eauto.
Qed.

Lemma clustered_pairs clusters x : x ∈ map fst (cluster_pairs clusters) <-> clustered clusters x.
Proof.
  rewrite elem_of_map. unfold clustered. split.
  - intros ([y i] & -> & Hin). apply elem_of_pairs in Hin as (_ & c & Hc & Hx). exists c. split; [by eapply elem_of_list_lookup_2|done].
  - intros (c & Hc & Hx). apply elem_of_list_lookup in Hc as [i Hc]. exists (x, Z.of_nat i). split; [done|]. apply elem_of_pairs.
    split; [lia|]. rewrite Nat2Z.id. eauto.
Qed.

Lemma values_tag x (k : Z) c : values x (map (fun y => (y, k)) c) = replicate (Z.to_nat (multiplicity x c)) k.
Proof.
  unfold multiplicity, zlen. rewrite Nat2Z.id. induction c as [|y c IH]; [done|]. unfold values in *. cbn [map List.filter fst].
  destruct (decide (y = x)) as [->|Hne].
  - rewrite bool_decide_eq_true_2 by done. rewrite filter_cons_True by done. cbn [map length replicate snd]. f_equal. exact IH.
  - rewrite bool_decide_eq_false_2 by done. rewrite filter_cons_False by done. exact IH.
Qed.

Lemma app_replicate_inj (k : Z) n m (a b : list Z) : k ∉ a -> k ∉ b -> a ++ replicate n k = b ++ replicate m k -> a = b /\ n = m.
Proof.
  revert m. induction n as [|n IH]; intros [|m] Ha Hb.
  - rewrite !app_nil_r. done.
  - rewrite app_nil_r, (replicate_S_end m). intros ->. exfalso. apply Ha. rewrite !elem_of_app, elem_of_list_singleton. tauto.
  - rewrite app_nil_r, (replicate_S_end n). intros <-. exfalso. apply Hb. rewrite !elem_of_app, elem_of_list_singleton. tauto.
  - rewrite !replicate_S_end, !app_assoc. intros E. apply app_inj_tail in E as [E _]. apply IH in E as [-> ->]; done.
Qed.

Lemma values_eq clusters x y : values x (cluster_pairs clusters) = values y (cluster_pairs clusters) <->
  forall c, c ∈ clusters -> multiplicity x c = multiplicity y c.
Proof.
  assert (Hno : forall cs z, zlen cs ∉ values z (cluster_pairs cs)).
  { intros cs z H. apply elem_of_values, elem_of_pairs in H as (_ & c & Hc & _). apply lookup_lt_Some in Hc. unfold zlen in Hc. lia. }
  induction clusters as [|c cs IH] using rev_ind.
  - split; [intros _ c H; inversion H|done].
  - rewrite pairs_snoc, !values_app, !values_tag. split.
    + intros E. apply app_replicate_inj in E as [E1 E2]; [|apply Hno|apply Hno]. intros c' Hc'. apply elem_of_app in Hc' as [Hc'|Hc'].
      * by apply IH.
      * apply elem_of_list_singleton in Hc' as ->. unfold multiplicity, zlen in *. lia.
    + intros H. rewrite (proj2 IH) by (intros c' Hc'; apply H, elem_of_app; by left).
      rewrite (H c) by (apply elem_of_app; right; by apply elem_of_list_singleton). done.
Qed.

Definition block_pairs (clusters : list (list Z)) : list (list Z * Z) := map (fun e => (snd e, fst e)) (index_to_clusters clusters).

Lemma createBlocks_group clusters : createBlocks clusters = map snd (group (block_pairs clusters)).
Proof.
  unfold createBlocks, group, block_pairs. f_equal. generalize (@nil (list Z * list Z)). generalize (index_to_clusters clusters) as l.
  induction l as [|[x v] l IH]; intros d; [done|]. cbn [foldl map fst snd]. apply IH.
Qed.

Lemma concat_blocks clusters : concat (createBlocks clusters) ≡ₚ map fst (index_to_clusters clusters).
Proof. rewrite createBlocks_group, group_concat. unfold block_pairs. by rewrite map_map. Qed.

Lemma NoDup_blocks clusters : NoDup (concat (createBlocks clusters)).
Proof. rewrite concat_blocks, itc_group. apply group_NoDup. Qed.

Lemma elem_of_itc clusters x l : (x, l) ∈ index_to_clusters clusters <-> clustered clusters x /\ l = values x (cluster_pairs clusters).
Proof. by rewrite itc_group, elem_of_group, clustered_pairs. Qed.

Lemma elem_of_blocks clusters x : x ∈ concat (createBlocks clusters) <-> clustered clusters x.
Proof.
  rewrite concat_blocks, elem_of_map. split.
  - intros ([y l] & -> & Hin). by apply elem_of_itc in Hin as [Hin _].
  - intros Hx. exists (x, values x (cluster_pairs clusters)). split; [done|]. by apply elem_of_itc.
Qed.

Lemma block_same clusters b x : b ∈ createBlocks clusters -> x ∈ b -> forall y,
  y ∈ b <-> forall c, c ∈ clusters -> multiplicity y c = multiplicity x c.
Proof.
  intros Hb Hx y.
  assert (Hcx : clustered clusters x) by (apply elem_of_blocks, elem_of_concat; eauto).
  rewrite createBlocks_group in Hb. apply elem_of_map in Hb as ([l b'] & -> & Hb). apply elem_of_group in Hb as [_ ->]. cbn [snd] in *.
  rewrite elem_of_values in *. unfold block_pairs in *.
  assert (Hp : forall z, (l, z) ∈ map (fun e => (snd e, fst e)) (index_to_clusters clusters) <-> clustered clusters z /\ l = values z (cluster_pairs clusters)).
  { intros z. rewrite <- elem_of_itc, elem_of_map. split; [intros ([a c] & [= -> ->] & H); done|]. intros H. by exists (z, l). }
  apply Hp in Hx as [_ ->]. rewrite <- values_eq. rewrite elem_of_map. split.
  - intros ([a c] & [= -> ->] & H). apply elem_of_itc in H as [_ ->]. done.
  - intros E. exists (y, values y (cluster_pairs clusters)). split; [by rewrite E|]. apply elem_of_itc. split; [|done].
    destruct Hcx as (c & Hc & Hxc). exists c. split; [done|].
    assert (Hm : multiplicity y c = multiplicity x c) by (apply (proj1 (values_eq clusters y x)); done).
    assert (Hpos : 0 < multiplicity x c).
    { unfold multiplicity, zlen. destruct (filter (fun y0 => y0 = x) c) eqn:Ef; [|cbn; lia]. exfalso.
      assert (x ∈ filter (fun y0 => y0 = x) c) by by apply elem_of_list_filter. rewrite Ef in H. inversion H. }
    rewrite <- Hm in Hpos. unfold multiplicity, zlen in Hpos. destruct (filter (fun y0 => y0 = y) c) as [|z f] eqn:Ef; [cbn in Hpos; lia|].
    assert (z ∈ filter (fun y0 => y0 = y) c) as Hz by (rewrite Ef; left). apply elem_of_list_filter in Hz as [-> Hz]. done.
Qed.

Lemma block_nonempty clusters b : b ∈ createBlocks clusters -> b <> [].
Proof.
  intros Hb. rewrite createBlocks_group in Hb. apply elem_of_map in Hb as ([l b'] & -> & Hb). apply elem_of_group in Hb as [Hl ->].
  apply elem_of_map in Hl as ([l' x] & -> & Hl). intros E. cbn [snd fst] in E.
  assert (x ∈ values l' (block_pairs clusters)) as Hx by by apply elem_of_values. rewrite E in Hx. inversion Hx.
Qed.

Lemma multiplicity_NoDup x c : NoDup c -> multiplicity x c = if bool_decide (x ∈ c) then 1 else 0.
Proof.
  intros Hn. unfold multiplicity. induction c as [|y c IH]; [done|]. apply list.NoDup_cons in Hn as [Hy Hn]. specialize (IH Hn).
  destruct (decide (y = x)) as [->|Hne].
  - rewrite filter_cons_True by done. rewrite zlen_cons, IH, bool_decide_eq_false_2, bool_decide_eq_true_2 by (done || left). done.
  - rewrite filter_cons_False by done. rewrite IH. apply (f_equal (fun b : bool => if b then 1 else 0)). apply bool_decide_ext.
    rewrite elem_of_cons. split; [tauto|]. intros [->|H]; done.
Qed.

Lemma multiplicity_pos x c : 0 < multiplicity x c <-> x ∈ c.
Proof.
  unfold multiplicity, zlen. destruct (filter (fun y => y = x) c) as [|z f] eqn:Ef.
  - split; [cbn; lia|]. intros H. assert (x ∈ filter (fun y => y = x) c) as Hx by by apply elem_of_list_filter. rewrite Ef in Hx. inversion Hx.
  - split; [|cbn; lia]. intros _. assert (z ∈ filter (fun y => y = x) c) as Hz by (rewrite Ef; left). apply elem_of_list_filter in Hz as [-> Hz]. done.
Qed.

Lemma C57_blocks_proof : forall clusters : list (list Z),
  let blocks := createBlocks clusters in
  NoDup (concat blocks) /\ NoDup blocks /\ (forall b, b ∈ blocks -> b <> []) /\
  (forall x, (exists b, b ∈ blocks /\ x ∈ b) <-> clustered clusters x) /\
  (forall b x y, b ∈ blocks -> x ∈ b -> (y ∈ b <-> forall c, c ∈ clusters -> multiplicity y c = multiplicity x c)) /\
  ((forall c, c ∈ clusters -> NoDup c) ->
   forall b x y, b ∈ blocks -> x ∈ b -> (y ∈ b <-> forall c, c ∈ clusters -> (y ∈ c <-> x ∈ c))).
Proof.
  intros clusters blocks.
  assert (Hnd : NoDup (concat blocks)) by apply NoDup_blocks.
  assert (Hne : forall b, b ∈ blocks -> b <> []) by (intros b; apply block_nonempty).
  split_and!; [done| |done| | |].
  - clear - Hnd Hne. induction blocks as [|b bs IH]; [constructor|]. cbn [concat] in Hnd. apply NoDup_app in Hnd as (H1 & H2 & H3).
    apply list.NoDup_cons. split.
    + intros Hin. destruct b as [|x b]; [by eapply (Hne []); [left|]|]. apply (H2 x); [left|]. apply elem_of_concat. exists (x :: b). split; [done|left].
    + apply IH; [done|]. intros b' Hb'. apply Hne. by right.
  - intros x. rewrite <- elem_of_blocks. fold blocks. rewrite elem_of_concat. split; intros (b & H1 & H2); exists b; done.
  - intros b x y Hb Hx. by apply block_same.
  - intros Hc b x y Hb Hx. rewrite (block_same clusters b x Hb Hx y). split; intros H c Hin; specialize (H c Hin).
    + by rewrite <- !multiplicity_pos, H.
    + rewrite !multiplicity_NoDup by by apply Hc. by rewrite (bool_decide_ext _ _ H).
Qed.


(** ** Lists of computations *)
Lemma rmap_total {A B} (f : A -> result B) (P : A -> B -> Prop) l :
  (forall x, x ∈ l -> exists y, f x = Ok y /\ P x y) -> exists ys, rmap f l = Ok ys /\ Forall2 P l ys.
Proof.
  induction l as [|x l IH]; intros H; [exists []; done|].
  destruct (H x) as (y & Hy & Py); [left|]. destruct IH as (ys & Hys & Pys); [intros z Hz; apply H; by right|].
  exists (y :: ys). cbn [rmap]. rewrite Hy. cbn [rbind]. rewrite Hys. split; [done|]. by constructor.
Qed.

Lemma rfold_inv {A S} (f : S -> A -> result S) (P : list A -> S -> Prop) l s :
  P [] s -> (forall l1 x l2 s, l = l1 ++ x :: l2 -> P l1 s -> exists s', f s x = Ok s' /\ P (l1 ++ [x]) s') ->
  exists s', rfold f s l = Ok s' /\ P l s'.
Proof.
  intros H0 Hs. assert (H : forall l2 l1 s, l = l1 ++ l2 -> P l1 s -> exists s', rfold f s l2 = Ok s' /\ P l s').
  { induction l2 as [|x l2 IH]; intros l1 s1 E Hp; [exists s1; rewrite app_nil_r in E; subst; done|].
    destruct (Hs l1 x l2 s1 E Hp) as (s' & E' & Hp'). cbn [rfold]. rewrite E'. cbn [rbind]. apply (IH (l1 ++ [x])); [|done]. by rewrite <- app_assoc. }
  by apply (H l []).
Qed.

Lemma list_index_ok {A} `{EqDecision A} (l : list A) x : x ∈ l -> exists i : nat, list_index l x = Ok (Z.of_nat i) /\ l !! i = Some x.
Proof.
  induction l as [|y l IH]; intros Hx; [inversion Hx|]. cbn [list_index]. destruct (decide (y = x)) as [->|Hne].
  - exists 0%nat. done.
  - apply elem_of_cons in Hx as [->|Hx]; [done|]. destruct (IH Hx) as (i & -> & Hi). exists (Datatypes.S i). split; [cbn; f_equal; lia|done].
Qed.

Lemma subset_b_true block c : subset_b block c = true <-> forall x, x ∈ block -> x ∈ c.
Proof.
  unfold subset_b. rewrite forallb_forall. split; intros H x Hx.
  - apply elem_of_list_In, H in Hx. by apply bool_decide_eq_true in Hx.
  - apply bool_decide_eq_true, H, elem_of_list_In, Hx.
Qed.

Lemma block_in_cluster clusters block c x : block ∈ createBlocks clusters -> c ∈ clusters -> x ∈ block -> x ∈ c -> forall y, y ∈ block -> y ∈ c.
Proof. intros Hb Hc Hx Hxc y Hy. apply multiplicity_pos in Hxc. apply multiplicity_pos. rewrite (proj1 (block_same clusters block x Hb Hx y) Hy c Hc). done. Qed.

Lemma NoDup_concat_same {A} (bs : list (list A)) i j b c x : NoDup (concat bs) -> bs !! i = Some b -> bs !! j = Some c -> x ∈ b -> x ∈ c -> i = j.
Proof.
  revert i j. induction bs as [|a bs IH]; intros i j Hn Hi Hj Hxb Hxc; [done|]. cbn [concat] in Hn. apply NoDup_app in Hn as (H1 & H2 & H3).
  destruct i as [|i], j as [|j]; [done| | |]; cbn in Hi, Hj.
  - injection Hi as ->. exfalso. apply (H2 x Hxb). apply elem_of_concat. exists c. split; [by eapply elem_of_list_lookup_2|done].
  - injection Hj as ->. exfalso. apply (H2 x Hxc). apply elem_of_concat. exists b. split; [by eapply elem_of_list_lookup_2|done].
  - f_equal. by eapply IH.
Qed.

Lemma C57_blocked_clusters_proof : forall clusters : list (list Z),
  let blocks := createBlocks clusters in
  exists cb, createBlockedClusters clusters blocks = Ok cb /\ zlen cb = zlen clusters /\
    forall (r : nat) c l, clusters !! r = Some c -> cb !! r = Some l ->
      NoDup l /\
      (forall b, b ∈ l <-> 0 <= b /\ exists block, blocks !! Z.to_nat b = Some block /\ forall x, x ∈ block -> x ∈ c) /\
      (forall b block x, blocks !! Z.to_nat b = Some block -> 0 <= b -> x ∈ block -> x ∈ c -> b ∈ l) /\
      (forall x, x ∈ c <-> exists b block, b ∈ l /\ blocks !! Z.to_nat b = Some block /\ x ∈ block).
Proof.
  intros clusters blocks.
  destruct (C57_blocks_proof clusters) as (Hnd & Hndb & Hne & Hcl & _). fold blocks in Hnd, Hndb, Hne, Hcl. cbv zeta in Hnd, Hndb, Hne, Hcl.
  assert (Hone : forall c, exists l, rmap (list_index blocks) (List.filter (fun block => subset_b block c) blocks) = Ok l /\
    Forall2 (fun block b => 0 <= b /\ blocks !! Z.to_nat b = Some block) (List.filter (fun block => subset_b block c) blocks) l).
  { intros c. apply rmap_total. intros block Hin. apply elem_of_lfilter in Hin as [_ Hin].
    destruct (list_index_ok blocks block Hin) as (i & E & Hi). exists (Z.of_nat i). split; [done|]. rewrite Nat2Z.id. split; [lia|done]. }
  destruct (rmap_total (fun c => rmap (list_index blocks) (List.filter (fun block => subset_b block c) blocks))
    (fun c l => Forall2 (fun block b => 0 <= b /\ blocks !! Z.to_nat b = Some block) (List.filter (fun block => subset_b block c) blocks) l) clusters)
    as (cb & Ecb & Hcb); [intros c _; apply Hone|].
  exists cb. split; [done|]. split; [unfold zlen; f_equal; symmetry; by eapply Forall2_length|].
  intros r c l Hc Hl. assert (Hf := Forall2_lookup_lr _ _ _ _ _ _ Hcb Hc Hl). cbn beta in Hf.
  assert (Hmem : forall b, b ∈ l <-> 0 <= b /\ exists block, blocks !! Z.to_nat b = Some block /\ forall x, x ∈ block -> x ∈ c).
  { intros b. split.
    - intros Hb. apply elem_of_list_lookup in Hb as [k Hb]. destruct (Forall2_lookup_r _ _ _ _ _ Hf Hb) as (block & Hk & H0 & Hbl).
      split; [done|]. exists block. split; [done|]. apply elem_of_list_lookup_2, elem_of_lfilter in Hk as [Hk _]. by apply subset_b_true.
    - intros (H0 & block & Hbl & Hsub). assert (Hin : block ∈ List.filter (fun block => subset_b block c) blocks).
      { apply elem_of_lfilter. split; [by apply subset_b_true|by eapply elem_of_list_lookup_2]. }
      apply elem_of_list_lookup in Hin as [k Hk]. destruct (Forall2_lookup_l _ _ _ _ _ Hf Hk) as (b' & Hb' & H0' & Hbl').
      assert (Z.to_nat b' = Z.to_nat b) as E by (eapply (NoDup_lookup blocks); done). assert (b' = b) as <- by lia. by eapply elem_of_list_lookup_2. }
  assert (Hcin : c ∈ clusters) by by eapply elem_of_list_lookup_2.
  assert (Hmeet : forall b block x, blocks !! Z.to_nat b = Some block -> 0 <= b -> x ∈ block -> x ∈ c -> b ∈ l).
  { intros b block x Hbl H0 Hx Hxc. apply Hmem. split; [done|]. exists block. split; [done|].
    apply (block_in_cluster clusters block c x); [by eapply elem_of_list_lookup_2|done|done|done]. }
  split_and!.
  - assert (Hfn : NoDup (List.filter (fun block => subset_b block c) blocks)) by by apply NoDup_lfilter.
    clear -Hf Hfn. revert Hfn. induction Hf as [|block b fl l [H0 Hb] Hf IH]; intros Hfn; [constructor|]. apply list.NoDup_cons in Hfn as [Hn Hfn].
    apply list.NoDup_cons. split; [|by apply IH]. intros Hin. apply elem_of_list_lookup in Hin as [k Hk].
    destruct (Forall2_lookup_r _ _ _ _ _ Hf Hk) as (block' & Hk' & _ & Hb'). apply Hn. assert (block' = block) as <- by congruence. by eapply elem_of_list_lookup_2.
  - done.
  - done.
  - intros x. split.
    + intros Hx. destruct (proj2 (Hcl x)) as (block & Hb & Hxb); [by exists c|]. apply elem_of_list_lookup in Hb as [k Hk].
      exists (Z.of_nat k), block. rewrite Nat2Z.id. split; [|done]. apply (Hmeet _ block x); [by rewrite Nat2Z.id|lia|done|done].
    + intros (b & block & Hb & Hbl & Hx). apply Hmem in Hb as (_ & block' & Hbl' & Hsub). assert (block' = block) as -> by congruence. by apply Hsub.
Qed.


(** ** Permutations *)
Lemma final_concat (perm : list Z) (blocks : list (list Z)) : (forall b, b ∈ perm -> 0 <= b < zlen blocks) -> forall acc,
  rfold (fun acc b => let! block := py_index blocks b in Ok (acc ++ block)) acc perm =
  Ok (acc ++ concat (map (fun b => blocks !!! Z.to_nat b) perm)).
Proof.
  induction perm as [|b perm IH]; intros H acc; [by rewrite app_nil_r|]. cbn [rfold].
  destruct (py_index_in_range blocks b) as (block & E & Hb); [apply H; left|]. rewrite E. cbn [rbind].
  rewrite IH by (intros b' Hb'; apply H; by right). cbn [map concat]. rewrite (list_lookup_total_correct _ _ _ Hb), app_assoc. done.
Qed.

Lemma map_lookup_range {A} `{Inhabited A} (l : list A) : map (fun b => l !!! Z.to_nat b) (py_range (zlen l)) = l.
Proof.
  apply list_eq. intros i. rewrite list_lookup_fmap. destruct (decide (i < length l)%nat) as [Hi|Hi].
  - assert (py_range (zlen l) !! i = Some (Z.of_nat i)) as ->.
    { rewrite <- (Nat2Z.id i). rewrite lookup_py_range; [by rewrite Nat2Z.id|]. unfold zlen. lia. }
    cbn. rewrite Nat2Z.id. destruct (lookup_lt_is_Some_2 l i Hi) as [x Hx]. by rewrite (list_lookup_total_correct _ _ _ Hx).
  - rewrite !(lookup_ge_None_2) by (rewrite ?length_py_range; unfold zlen; lia). done.
Qed.

Lemma append_missing (nodes acc : list Z) : NoDup acc ->
  let r := foldl (fun acc node => if bool_decide (node ∈ acc) then acc else acc ++ [node]) acc nodes in
  NoDup r /\ (forall x, x ∈ r <-> x ∈ acc \/ x ∈ nodes) /\ exists rest, r = acc ++ rest /\ rest `sublist_of` nodes.
Proof.
  revert acc. induction nodes as [|n nodes IH]; intros acc Hn; cbn [foldl].
  - split; [done|]. split; [intros x; split; [tauto|intros [H|H]; [done|inversion H]]|]. exists []. split; [by rewrite app_nil_r|constructor].
  - destruct (decide (n ∈ acc)) as [Hin|Hin].
    + rewrite bool_decide_eq_true_2 by done. destruct (IH acc Hn) as (H1 & H2 & rest & H3 & H4). split; [done|]. split.
      * intros x. rewrite H2, elem_of_cons. split; [tauto|]. intros [H|[->|H]]; tauto.
      * exists rest. split; [done|]. by constructor.
    + rewrite bool_decide_eq_false_2 by done. destruct (IH (acc ++ [n])) as (H1 & H2 & rest & H3 & H4).
      { apply NoDup_app. split; [done|]. split; [|apply NoDup_singleton]. intros x Hx H. apply elem_of_list_singleton in H as ->. done. }
      split; [done|]. split.
      * intros x. rewrite H2, elem_of_app, elem_of_list_singleton, elem_of_cons. tauto.
      * exists (n :: rest). split; [by rewrite H3, <- app_assoc|]. by constructor.
Qed.

Lemma final_permutation_ok perm blocks n : perm ≡ₚ py_range (zlen blocks) -> NoDup (concat blocks) ->
  (forall x, x ∈ concat blocks -> 0 <= x < n) ->
  exists p, final_permutation perm blocks n = Ok p /\ p ≡ₚ py_range n /\
    exists bs rest, p = concat bs ++ rest /\ bs ≡ₚ blocks /\ rest `sublist_of` py_range n.
Proof.
  intros Hp Hn Hr. unfold final_permutation. rewrite final_concat.
  2: { intros b Hb. rewrite Hp in Hb. by apply elem_of_py_range. }
  cbn [rbind app]. set (bs := map (fun b => blocks !!! Z.to_nat b) perm).
  assert (Hbs : bs ≡ₚ blocks) by (unfold bs; rewrite Hp; by rewrite map_lookup_range).
  assert (Hc : concat bs ≡ₚ concat blocks) by by rewrite Hbs.
  destruct (append_missing (py_range n) (concat bs)) as (H1 & H2 & rest & H3 & H4); [by rewrite Hc|].
  eexists. split; [reflexivity|]. split.
  - apply NoDup_Permutation; [done|apply NoDup_py_range|]. intros x. rewrite H2, Hc. split; [|tauto]. intros [H|H]; [|done]. by apply elem_of_py_range, Hr.
  - exists bs, rest. done.
Qed.

(** ** The constructor *)
Lemma zip_take_r {A B} n (l : list A) (r : list B) : zip (take n l) (take n r) = zip (take n l) r.
Proof. revert l r. induction n as [|n IH]; intros [|x l] [|y r]; try done. cbn. by rewrite IH. Qed.

Lemma keep_clusters_ok left right : zlen left <= zlen right ->
  keep_clusters left right = Ok (map fst (kept left right), map snd (kept left right)).
Proof.
  intros Hl. unfold keep_clusters.
  destruct (rfold_inv (fun '(ls, rs) i =>
    let! l := py_index left i in
    if bool_decide (l = []) then Ok (ls, rs)
    else let! r := py_index right i in
         if bool_decide (r = []) then Ok (ls, rs) else Ok (ls ++ [l], rs ++ [r]))
    (fun done s => s = (map fst (kept (take (length done) left) right), map snd (kept (take (length done) left) right)))
    (py_range (zlen left)) ([], [])) as (s' & E & ->).
  - done.
  - intros l1 i l2 s E ->.
    assert (Hi : i = zlen l1 /\ (length l1 < length left)%nat).
    { assert (Hlk : py_range (zlen left) !! length l1 = Some i) by by rewrite E, list_lookup_middle.
      apply lookup_lt_Some in Hlk as Hlt. rewrite length_py_range in Hlt. unfold zlen in Hlt.
      rewrite <- (Nat2Z.id (length l1)), lookup_py_range in Hlk by (unfold zlen; lia). injection Hlk as <-. unfold zlen. lia. }
    destruct Hi as [-> Hlt]. unfold zlen in Hl.
    destruct (lookup_lt_is_Some_2 left (length l1) Hlt) as [l Ell]. destruct (lookup_lt_is_Some_2 right (length l1)) as [r Er]; [lia|].
    rewrite (proj2 (py_index_ok left (zlen l1) l (zlen_nonneg _))) by (unfold zlen; by rewrite Nat2Z.id).
    rewrite (proj2 (py_index_ok right (zlen l1) r (zlen_nonneg _))) by (unfold zlen; by rewrite Nat2Z.id).
    assert (Hk : kept (take (length (l1 ++ [zlen l1])) left) right =
      kept (take (length l1) left) right ++ (if bool_decide (l <> [] /\ r <> []) then [(l, r)] else [])).
    { rewrite app_length. cbn [length]. rewrite Nat.add_1_r, (take_S_r _ _ _ Ell). unfold kept.
      rewrite <- (take_drop (length l1) right) at 1. rewrite zip_with_app by (rewrite !take_length; lia). rewrite list.filter_app. f_equal.
      - by rewrite zip_take_r.
      - rewrite (drop_S _ _ _ Er). cbn [zip zip_with]. destruct (decide (l <> [] /\ r <> [])) as [H|H].
        + rewrite bool_decide_eq_true_2, filter_cons_True by done. done.
        + rewrite bool_decide_eq_false_2, filter_cons_False by done. done. }
    rewrite Hk. cbn [rbind]. destruct (decide (l = [])) as [->|Hle].
    + rewrite bool_decide_eq_true_2 by done. eexists. split; [reflexivity|]. rewrite bool_decide_eq_false_2 by tauto. by rewrite app_nil_r.
    + rewrite (bool_decide_eq_false_2 (l = [])) by done. destruct (decide (r = [])) as [->|Hre].
      * rewrite bool_decide_eq_true_2 by done. eexists. split; [reflexivity|]. rewrite bool_decide_eq_false_2 by tauto. by rewrite app_nil_r.
      * rewrite (bool_decide_eq_false_2 (r = [])) by done. eexists. split; [reflexivity|]. rewrite bool_decide_eq_true_2 by done. by rewrite !map_app.
  - rewrite E, length_py_range. unfold zlen. rewrite Nat2Z.id, firstn_all. done.
Qed.

(** ** Writing into matrices *)
Definition has_effect (rows cols : Z) (f : list (list Z) -> result (list (list Z))) (u : nat -> nat -> option Z) : Prop :=
  forall M, has_shape M rows cols -> exists M', f M = Ok M' /\ has_shape M' rows cols /\
    forall a b w, cell M' a b w <-> match u a b with Some v => w = v | None => cell M a b w end.

Lemma shape_cell M rows cols a b : has_shape M rows cols -> (exists v, cell M a b v) <-> (Z.of_nat a < rows /\ Z.of_nat b < cols).
Proof.
  intros [Hr Hc]. split.
  - intros (v & row & Ha & Hb). specialize (Hc row (elem_of_list_lookup_2 _ _ _ Ha)). apply lookup_lt_Some in Ha, Hb. unfold zlen in *. lia.
  - intros [Ha Hb]. destruct (lookup_lt_is_Some_2 M a) as [row Er]; [unfold zlen in *; lia|].
    specialize (Hc row (elem_of_list_lookup_2 _ _ _ Er)). destruct (lookup_lt_is_Some_2 row b) as [v Ev]; [unfold zlen in *; lia|].
    exists v, row. done.
Qed.

Lemma set_cell_effect rows cols i j v : 0 <= i < rows -> 0 <= j < cols ->
  has_effect rows cols (fun M => set_cell M i j v) (fun a b => if decide (Z.of_nat a = i /\ Z.of_nat b = j) then Some v else None).
Proof.
  intros Hi Hj M [Hr Hc]. unfold set_cell. destruct (py_index_in_range M i) as (row & E & El); [lia|]. rewrite E. cbn [rbind].
  assert (Hrow := Hc row (elem_of_list_lookup_2 _ _ _ El)). rewrite py_setitem_ok by lia. cbn [rbind]. rewrite py_setitem_ok by lia.
  eexists. split; [reflexivity|]. split.
  - split; [unfold zlen; by rewrite insert_length|]. intros row' Hin. apply elem_of_list_lookup in Hin as [k Hk].
    apply list_lookup_insert_Some in Hk as [(<- & <- & _)|[_ Hk]]; [unfold zlen; by rewrite insert_length|].
    apply Hc. by eapply elem_of_list_lookup_2.
  - intros a b w. unfold cell. destruct (decide (Z.of_nat a = i)) as [Ha|Ha].
    + assert (a = Z.to_nat i) as -> by lia. rewrite list_lookup_insert by (unfold zlen in Hr; lia).
      destruct (decide (Z.of_nat b = j)) as [Hb|Hb].
      * rewrite decide_True by (split; lia). assert (b = Z.to_nat j) as -> by lia. split.
        -- intros (row' & [= <-] & H). rewrite list_lookup_insert in H by (unfold zlen in Hrow; lia). congruence.
        -- intros ->. eexists. split; [done|]. apply list_lookup_insert. unfold zlen in Hrow. lia.
      * rewrite decide_False by tauto. split.
        -- intros (row' & [= <-] & H). rewrite list_lookup_insert_ne in H by lia. eauto.
        -- intros (row' & E' & H). assert (row' = row) as -> by congruence. eexists. split; [done|]. rewrite list_lookup_insert_ne by lia. done.
    + rewrite decide_False by tauto. rewrite list_lookup_insert_ne by lia. done.
Qed.

Lemma effect_none rows cols : has_effect rows cols (fun M => Ok M) (fun _ _ => None).
Proof. intros M HM. exists M. done. Qed.

Lemma effect_fold {A} rows cols (step : list (list Z) -> A -> result (list (list Z))) (u : A -> nat -> nat -> option Z) l :
  (forall e, e ∈ l -> has_effect rows cols (fun M => step M e) (u e)) ->
  has_effect rows cols (fun M => rfold step M l) (fun a b => list.last (omap (fun e => u e a b) l)).
Proof.
  intros Hl M HM.
  destruct (rfold_inv step (fun done M' => has_shape M' rows cols /\ forall a b w, cell M' a b w <->
     match list.last (omap (fun e => u e a b) done) with Some v => w = v | None => cell M a b w end) l M) as (M' & E & H1 & H2).
  - done.
  - intros l1 x l2 M1 E [HM1 Hc1]. assert (Hx : x ∈ l) by (subst; apply elem_of_app; right; left).
    destruct (Hl x Hx M1 HM1) as (M2 & E2 & HM2 & Hc2).
    exists M2. split; [done|]. split; [done|]. intros a b w. rewrite Hc2, omap_app. cbn [omap list_omap].
    destruct (u x a b) as [v|]; [by rewrite list.last_snoc|]. rewrite app_nil_r. apply Hc1.
  - exists M'. done.
Qed.

Lemma effect_ext rows cols f u u' : has_effect rows cols f u -> (forall a b, u a b = u' a b) -> has_effect rows cols f u'.
Proof. intros H E M HM. destruct (H M HM) as (M' & H1 & H2 & H3). exists M'. split; [done|]. split; [done|]. intros a b w. by rewrite <- E. Qed.

Lemma effect_fun_ext rows cols f g u : (forall M, g M = f M) -> has_effect rows cols f u -> has_effect rows cols g u.
Proof. intros E H M HM. rewrite E. by apply H. Qed.

Lemma last_omap_None {A B} (f : A -> option B) l : list.last (omap f l) = None <-> forall e, e ∈ l -> f e = None.
Proof.
  induction l as [|x l IH] using rev_ind; [split; [intros _ e He; inversion He|done]|]. rewrite omap_app. cbn [omap list_omap].
  destruct (f x) as [v|] eqn:E.
  - rewrite list.last_snoc. split; [done|]. intros H. rewrite H in E; [done|]. apply elem_of_app. right. left.
  - rewrite app_nil_r, IH. split; intros H e He.
    + apply elem_of_app in He as [He|He]; [by apply H|]. by apply elem_of_list_singleton in He as ->.
    + apply H, elem_of_app. by left.
Qed.

Lemma last_omap_Some {A B} (f : A -> option B) l v : list.last (omap f l) = Some v ->
  exists l1 e l2, l = l1 ++ e :: l2 /\ f e = Some v /\ forall e', e' ∈ l2 -> f e' = None.
Proof.
  induction l as [|x l IH] using rev_ind; [done|]. rewrite omap_app. cbn [omap list_omap].
  destruct (f x) as [w|] eqn:E.
  - rewrite list.last_snoc. intros [= ->]. exists l, x, []. split; [done|]. split; [done|]. intros e' He; inversion He.
  - rewrite app_nil_r. intros H. destruct (IH H) as (l1 & e & l2 & -> & He & Hl2). exists l1, e, (l2 ++ [x]).
    split; [by rewrite <- app_assoc|]. split; [done|]. intros e' He'. apply elem_of_app in He' as [He'|He']; [by apply Hl2|]. by apply elem_of_list_singleton in He' as ->.
Qed.

(** all writes to one cell carry the same value *)
Lemma last_omap_const {A B} (f : A -> option B) l v (P : Prop) `{Decision P} :
  (forall e w, e ∈ l -> f e = Some w -> w = v) -> (P <-> exists e w, e ∈ l /\ f e = Some w) ->
  list.last (omap f l) = if decide P then Some v else None.
Proof.
  intros Hv HP. destruct (list.last (omap f l)) as [w|] eqn:E.
  - apply last_omap_Some in E as (l1 & e & l2 & -> & He & _). assert (Hin : e ∈ l1 ++ e :: l2) by (apply elem_of_app; right; left).
    rewrite decide_True by (apply HP; eauto). f_equal. by eapply Hv.
  - rewrite last_omap_None in E. rewrite decide_False; [done|]. intros HPP. apply HP in HPP as (e & w & He & Hw). rewrite E in Hw; done.
Qed.

Lemma set_block_effect rows cols ls rs v : (forall i, i ∈ ls -> 0 <= i < rows) -> (forall j, j ∈ rs -> 0 <= j < cols) ->
  has_effect rows cols (fun M => set_block M ls rs v)
    (fun a b => if decide (Z.of_nat a ∈ ls /\ Z.of_nat b ∈ rs) then Some v else None).
Proof.
  intros Hl Hr. unfold set_block. eapply effect_ext.
  - apply effect_fold. intros i Hi. apply effect_fold. intros j Hj. apply set_cell_effect; [by apply Hl|by apply Hr].
  - intros a b. cbn beta. apply last_omap_const.
    + intros i w Hi Hw. apply last_omap_Some in Hw as (l1 & j & l2 & _ & Hw & _). destruct (decide _); congruence.
    + split.
      * intros [Ha Hb]. exists (Z.of_nat a). destruct (list.last (omap (fun j => if decide (Z.of_nat a = Z.of_nat a /\ Z.of_nat b = j) then Some v else None) rs)) as [w|] eqn:E; [eauto|].
        rewrite last_omap_None in E. specialize (E (Z.of_nat b) Hb). rewrite decide_True in E by done. done.
      * intros (i & w & Hi & Hw). apply last_omap_Some in Hw as (l1 & j & l2 & -> & Hw & _). destruct (decide (Z.of_nat a = i /\ Z.of_nat b = j)) as [[-> ->]|]; [|done].
        split; [done|]. apply elem_of_app. right. left.
Qed.

Lemma zeros_shape rows cols : 0 <= rows -> 0 <= cols -> has_shape (zeros rows cols) rows cols.
Proof.
  intros Hr Hc. split; [unfold zlen, zeros; rewrite replicate_length; lia|]. intros row Hin. apply elem_of_replicate in Hin as [-> _].
  unfold zlen. rewrite replicate_length. lia.
Qed.

Lemma cell_zeros rows cols a b w : cell (zeros rows cols) a b w -> w = 0.
Proof. intros (row & Ha & Hb). unfold zeros in Ha. apply lookup_replicate in Ha as [-> _]. by apply lookup_replicate in Hb as [-> _]. Qed.

(** ** Block adjacency *)
Lemma adj_effect lb rb ls rs : zlen ls = zlen rs ->
  has_effect (zlen lb) (zlen rb) (fun M => rfold (fun C i => rfold (fun C j =>
      let! lb := py_index lb i in
      let! lc := py_index ls j in
      if subset_b lb lc then
        rfold (fun C k =>
          let! rb := py_index rb k in
          let! rc := py_index rs j in
          if subset_b rb rc then set_cell C i k (Z.of_nat (size (py_set lb)) * Z.of_nat (size (py_set rb))) else Ok C)
          C (py_range (zlen rb))
      else Ok C) C (py_range (zlen ls))) M (py_range (zlen lb)))
   (fun a b => list.last (omap (fun i => list.last (omap (fun j =>
      if subset_b (lb !!! Z.to_nat i) (ls !!! Z.to_nat j) then list.last (omap (fun k =>
        if subset_b (rb !!! Z.to_nat k) (rs !!! Z.to_nat j)
        then (if decide (Z.of_nat a = i /\ Z.of_nat b = k)
              then Some (Z.of_nat (size (py_set (lb !!! Z.to_nat i))) * Z.of_nat (size (py_set (rb !!! Z.to_nat k)))) else None)
        else None) (py_range (zlen rb)))
      else None) (py_range (zlen ls)))) (py_range (zlen lb)))).
Proof.
  intros Hl. apply (effect_fold _ _ (fun C i => rfold _ C _) (fun i a b => list.last (omap _ _))). intros i Hi. apply elem_of_py_range in Hi.
  apply (effect_fold _ _ _ (fun j a b => if subset_b (lb !!! Z.to_nat i) (ls !!! Z.to_nat j) then list.last (omap (fun k =>
        if subset_b (rb !!! Z.to_nat k) (rs !!! Z.to_nat j)
        then (if decide (Z.of_nat a = i /\ Z.of_nat b = k)
              then Some (Z.of_nat (size (py_set (lb !!! Z.to_nat i))) * Z.of_nat (size (py_set (rb !!! Z.to_nat k)))) else None)
        else None) (py_range (zlen rb))) else None)).
  intros j Hj. apply elem_of_py_range in Hj.
  destruct (py_index_in_range lb i) as (lbi & E1 & L1); [done|]. destruct (py_index_in_range ls j) as (lcj & E2 & L2); [done|].
  rewrite E1, E2, (list_lookup_total_correct _ _ _ L1), (list_lookup_total_correct _ _ _ L2). cbn [rbind].
  destruct (subset_b lbi lcj); [|apply effect_none].
  apply (effect_fold _ _ _ (fun k a b => if subset_b (rb !!! Z.to_nat k) (rs !!! Z.to_nat j)
        then (if decide (Z.of_nat a = i /\ Z.of_nat b = k)
              then Some (Z.of_nat (size (py_set lbi)) * Z.of_nat (size (py_set (rb !!! Z.to_nat k)))) else None)
        else None)).
  intros k Hk. apply elem_of_py_range in Hk.
  destruct (py_index_in_range rb k) as (rbk & E3 & L3); [done|]. destruct (py_index_in_range rs j) as (rcj & E4 & L4); [lia|].
  rewrite E3, E4, (list_lookup_total_correct _ _ _ L3), (list_lookup_total_correct _ _ _ L4). cbn [rbind].
  destruct (subset_b rbk rcj); [|apply effect_none]. by apply set_cell_effect.
Qed.

Lemma adj_ok lb rb ls rs : zlen ls = zlen rs ->
  exists C, createBlockBlockAdj lb rb ls rs = Ok C /\ has_shape C (zlen lb) (zlen rb) /\
    forall a b bl br, lb !! a = Some bl -> rb !! b = Some br ->
      cell C a b (if decide (Exists (fun p : list Z * list Z => subset_b bl (fst p) = true /\ subset_b br (snd p) = true) (zip ls rs))
                  then Z.of_nat (size (py_set bl)) * Z.of_nat (size (py_set br)) else 0).
Proof.
  intros Hl. destruct (adj_effect lb rb ls rs Hl (zeros (zlen lb) (zlen rb))) as (C & E & Hs & Hc); [apply zeros_shape; apply zlen_nonneg|].
  exists C. split; [exact E|]. split; [done|]. intros a b bl br Ha Hb.
  apply lookup_lt_Some in Ha as La. apply lookup_lt_Some in Hb as Lb.
  apply Hc. rewrite (last_omap_const _ _ (Z.of_nat (size (py_set bl)) * Z.of_nat (size (py_set br)))
    (Exists (fun p : list Z * list Z => subset_b bl (fst p) = true /\ subset_b br (snd p) = true) (zip ls rs))).
  - destruct (decide _) as [|Hno]; [done|]. destruct (shape_cell (zeros (zlen lb) (zlen rb)) (zlen lb) (zlen rb) a b) as [_ Hz].
    { apply zeros_shape; apply zlen_nonneg. }
    destruct Hz as [v Hv]; [unfold zlen; lia|]. pose proof (cell_zeros _ _ _ _ _ Hv) as ->. exact Hv.
  - intros i w _ Hw. apply last_omap_Some in Hw as (? & j & ? & _ & Hw & _). destruct (subset_b _ _); [|done].
    apply last_omap_Some in Hw as (? & k & ? & _ & Hw & _). destruct (subset_b _ _); [|done]. destruct (decide _) as [[<- <-]|]; [|done].
    rewrite !Nat2Z.id, (list_lookup_total_correct _ _ _ Ha), (list_lookup_total_correct _ _ _ Hb) in Hw. congruence.
  - split.
    + intros Hex. apply list.Exists_exists in Hex as ([lc rc] & Hin & H1 & H2). cbn [fst snd] in H1, H2.
      apply elem_of_list_lookup in Hin as [j Hj]. apply lookup_zip_with_Some in Hj as (lc' & rc' & [= <- <-] & Hj1 & Hj2).
      apply lookup_lt_Some in Hj1 as Hj. exists (Z.of_nat a).
      match goal with |- exists w, _ /\ ?X = Some w => destruct X as [w|] eqn:Ew end.
      { exists w. split; [|done]. apply elem_of_py_range. unfold zlen. lia. }
      exfalso. rewrite last_omap_None in Ew. specialize (Ew (Z.of_nat j)). rewrite !Nat2Z.id, (list_lookup_total_correct _ _ _ Ha), (list_lookup_total_correct _ _ _ Hj1), H1 in Ew.
      rewrite last_omap_None in Ew. specialize (Ew ltac:(apply elem_of_py_range; unfold zlen; lia) (Z.of_nat b)).
      rewrite !Nat2Z.id, (list_lookup_total_correct _ _ _ Hb), (list_lookup_total_correct _ _ _ Hj2), H2 in Ew. rewrite decide_True in Ew by done.
      discriminate Ew. apply elem_of_py_range. unfold zlen. lia.
    + intros (i & w & _ & Hw). apply last_omap_Some in Hw as (l1 & j & l2 & El & Hw & _). destruct (subset_b (lb !!! Z.to_nat i) _) eqn:S1; [|done].
      apply last_omap_Some in Hw as (? & k & ? & _ & Hw & _). destruct (subset_b (rb !!! Z.to_nat k) _) eqn:S2; [|done]. destruct (decide _) as [[<- <-]|]; [|done].
      rewrite !Nat2Z.id, (list_lookup_total_correct _ _ _ Ha) in S1. rewrite !Nat2Z.id, (list_lookup_total_correct _ _ _ Hb) in S2.
      assert (Hj : j ∈ py_range (zlen ls)) by (rewrite El; apply elem_of_app; right; left). apply elem_of_py_range in Hj.
      destruct (py_index_in_range ls j) as (lc & _ & L2); [done|]. destruct (py_index_in_range rs j) as (rc & _ & L4); [lia|].
      rewrite (list_lookup_total_correct _ _ _ L2) in S1. rewrite (list_lookup_total_correct _ _ _ L4) in S2.
      apply list.Exists_exists. exists (lc, rc). split; [|done]. apply elem_of_list_lookup. exists (Z.to_nat j). apply lookup_zip_with_Some. eauto.
Qed.

(** ** The ordering *)
Lemma associations_ok blocks clusters blocked : (forall b, b ∈ blocks -> b <> []) -> zlen blocked = zlen clusters ->
  exists IA, associations blocks clusters blocked = Ok IA /\ forall e, e ∈ IA -> 0 <= snd e < zlen clusters.
Proof.
  intros Hb Hl. unfold associations.
  destruct (rfold_inv (fun acc '(b, block) =>
    let! user := py_index block 0 in
    rfold (fun acc r =>
      let! c := py_index clusters r in
      Ok (if bool_decide (user ∈ c) then acc ++ [(b, block, r)] else acc)) acc (py_range (zlen blocked)))
    (fun _ (acc : list (Z * list Z * Z)) => forall e, e ∈ acc -> 0 <= snd e < zlen clusters) (enumerate blocks) []) as (IA & E & HIA).
  - intros e He. inversion He.
  - intros l1 [b block] l2 acc El Hacc.
    assert (Hin : (b, block) ∈ enumerate blocks) by (rewrite El; apply elem_of_app; right; left). apply elem_of_enumerate in Hin as [_ Hin].
    specialize (Hb block (elem_of_list_lookup_2 _ _ _ Hin)). destruct block as [|user block]; [done|]. cbn [py_index].
    assert (py_index (user :: block) 0 = Ok user) as -> by by apply py_index_ok. cbn [rbind].
    destruct (rfold_inv (fun acc r => let! c := py_index clusters r in
      Ok (if bool_decide (user ∈ c) then acc ++ [(b, user :: block, r)] else acc))
      (fun _ (acc : list (Z * list Z * Z)) => forall e, e ∈ acc -> 0 <= snd e < zlen clusters) (py_range (zlen blocked)) acc) as (acc' & E' & H').
    + done.
    + intros l1' r l2' acc1 Er Hacc1. assert (Hr : r ∈ py_range (zlen blocked)) by (rewrite Er; apply elem_of_app; right; left). apply elem_of_py_range in Hr.
      destruct (py_index_in_range clusters r) as (c & -> & _); [lia|]. cbn [rbind]. eexists. split; [reflexivity|].
      intros e He. destruct (bool_decide _); [|by apply Hacc1]. apply elem_of_app in He as [He|He]; [by apply Hacc1|].
      apply elem_of_list_singleton in He as ->. cbn. lia.
    + exists acc'. done.
  - exists IA. done.
Qed.

Lemma importance_ok left right item IA : zlen left = zlen right -> (forall e, e ∈ IA -> 0 <= snd e < zlen left) ->
  exists s, importanceScore left right item IA = Ok s.
Proof.
  intros Hl HIA. unfold importanceScore.
  destruct (rmap_total (fun e : Z * list Z * Z => roleArea left right (snd e)) (fun _ _ => True) (List.filter (fun e => fst (fst e) =? item) IA)) as (ys & -> & _).
  - intros e He. apply elem_of_lfilter in He as [_ He]. specialize (HIA e He). unfold roleArea.
    destruct (py_index_in_range left (snd e)) as (l & -> & _); [done|]. destruct (py_index_in_range right (snd e)) as (r & -> & _); [lia|]. cbn. eauto.
  - cbn. eauto.
Qed.

Lemma insert_key_perm {A} k (x : A) l : insert_key k x l ≡ₚ (k, x) :: l.
Proof.
  induction l as [|[k' y] l IH]; [done|]. cbn [insert_key]. destruct (k <=? k'); [done|]. rewrite IH. apply Permutation_swap.
Qed.

Lemma sort_keyed_perm {A} (l : list (Z * A)) : sort_keyed l ≡ₚ map snd l.
Proof.
  unfold sort_keyed. apply Permutation_map. induction l as [|[k x] l IH]; [done|]. cbn [foldr fst snd]. by rewrite insert_key_perm, IH.
Qed.

Lemma sorted_by_ok {A} (key : A -> result Z) l : (forall x, x ∈ l -> exists k, key x = Ok k) -> exists l', sorted_by key l = Ok l' /\ l' ≡ₚ l.
Proof.
  intros H. unfold sorted_by. destruct (rmap_total (fun x => let! k := key x in Ok (k, x)) (fun x e => snd e = x) l) as (ys & -> & Hys).
  - intros x Hx. destruct (H x Hx) as [k ->]. cbn. eauto.
  - cbn. eexists. split; [reflexivity|]. rewrite sort_keyed_perm. clear H. induction Hys as [|x y l ys <- Hys IH]; [done|]. cbn. by rewrite IH.
Qed.

Lemma insert_item_ok IA IAbar sigma I : exists sigma', insert_item IA IAbar sigma I = Ok sigma' /\ sigma' ≡ₚ I :: sigma.
Proof.
  unfold insert_item. destruct (Z.ltb_spec (zlen sigma) 2) as [H|H].
  - eexists. split; [reflexivity|]. symmetry. apply Permutation_cons_append.
  - destruct (py_index_in_range sigma 0) as (x & -> & _); [lia|].
    assert (exists y, py_index sigma (-1) = Ok y) as [y ->].
    { unfold py_index. cbn [Z.ltb Z.compare]. destruct (Z.ltb_spec (-1 + zlen sigma) 0); [lia|]. destruct (Z.leb_spec (zlen sigma) (-1 + zlen sigma)); [lia|].
      cbn [orb]. destruct (lookup_lt_is_Some_2 sigma (Z.to_nat (-1 + zlen sigma))) as [y ->]; [unfold zlen in *; lia|]. eauto. }
    cbn [rbind]. match goal with |- context [rfold ?f ?s ?l] => destruct (rfold_inv f (fun _ _ => True) l s) as ([p q] & -> & _) end.
    + done.
    + intros l1 i l2 [p j] El _. assert (Hi : i ∈ seqZ 2 (zlen sigma - 2)) by (rewrite El; apply elem_of_app; right; left). apply elem_of_seqZ in Hi.
      destruct (py_index_in_range sigma (i - 1)) as (a & -> & _); [lia|]. destruct (py_index_in_range sigma i) as (b & -> & _); [lia|]. cbn [rbind]. eauto.
    + cbn [rbind]. eexists. split; [reflexivity|]. unfold list_insert. rewrite <- Permutation_middle. by rewrite take_drop.
Qed.

Lemma sortSet_ok left right items IA IAbar : zlen left = zlen right -> (forall e, e ∈ IA -> 0 <= snd e < zlen left) ->
  exists sigma, sortSet left right items IA IAbar = Ok sigma /\ sigma ≡ₚ items.
Proof.
  intros Hl HIA. unfold sortSet.
  destruct (sorted_by_ok (fun x => let! s := importanceScore left right x IA in Ok (- s)) items) as (srt & -> & Hs).
  - intros x _. destruct (importance_ok left right x IA Hl HIA) as [s ->]. cbn. eauto.
  - cbn [rbind]. destruct (rfold_inv (insert_item IA IAbar) (fun done sigma => sigma ≡ₚ done) srt []) as (sigma & -> & Hp).
    + done.
    + intros l1 x l2 s _ Hp. destruct (insert_item_ok IA IAbar s x) as (s' & E & Hs'). exists s'. split; [done|]. rewrite Hs', Hp. apply Permutation_cons_append.
    + exists sigma. split; [done|]. by rewrite Hp.
Qed.

(** what the constructor and order establish *)
Definition good (left right A : list (list Z)) (rows cols : Z) (m : blockmat) : Prop :=
  bm_A m = A /\ bm_rows m = rows /\ bm_cols m = cols /\
  bm_left m = map fst (kept left right) /\ bm_right m = map snd (kept left right) /\
  bm_left_blocks m = createBlocks (bm_left m) /\ bm_right_blocks m = createBlocks (bm_right m) /\
  zlen (bm_left_cb m) = zlen (bm_left m) /\ zlen (bm_right_cb m) = zlen (bm_right m) /\
  bm_left_perm m ≡ₚ py_range (zlen (bm_left_blocks m)) /\ bm_right_perm m ≡ₚ py_range (zlen (bm_right_blocks m)) /\
  createBlockBlockAdj (bm_left_blocks m) (bm_right_blocks m) (bm_left m) (bm_right m) = Ok (bm_C m).

Lemma new_blockmat_ok shL shR left right A rows cols : (forall l, shL l ≡ₚ l) -> (forall l, shR l ≡ₚ l) -> zlen left <= zlen right ->
  exists m, new_blockmat shL shR left right A rows cols = Ok m /\ good left right A rows cols m.
Proof.
  intros HL HR Hl. unfold new_blockmat. rewrite (keep_clusters_ok left right Hl). cbn [rbind].
  destruct (C57_blocked_clusters_proof (map fst (kept left right))) as (lcb & -> & Hlcb & _).
  destruct (C57_blocked_clusters_proof (map snd (kept left right))) as (rcb & -> & Hrcb & _). cbn [rbind].
  destruct (adj_ok (createBlocks (map fst (kept left right))) (createBlocks (map snd (kept left right))) (map fst (kept left right)) (map snd (kept left right)))
    as (C & E & _); [by rewrite !zlen_map|].
  rewrite E. cbn [rbind]. eexists. split; [reflexivity|]. unfold good.
  cbn [bm_A bm_rows bm_cols bm_left bm_right bm_left_blocks bm_right_blocks bm_left_cb bm_right_cb bm_left_perm bm_right_perm bm_C].
  split_and!; try done.
Qed.

Lemma order_ok left right A rows cols m : good left right A rows cols m ->
  exists m', order m = Ok m' /\ good left right A rows cols m'.
Proof.
  intros (H1 & H2 & H3 & H4 & H5 & H6 & H7 & H8 & H9 & H10 & H11 & H12). unfold order.
  assert (Hlr : zlen (bm_left m) = zlen (bm_right m)) by (rewrite H4, H5, !zlen_map; done).
  destruct (associations_ok (bm_left_blocks m) (bm_left m) (bm_left_cb m)) as (UA & -> & HUA); [rewrite H6; apply block_nonempty|done|].
  destruct (associations_ok (bm_right_blocks m) (bm_right m) (bm_right_cb m)) as (PA & -> & HPA); [rewrite H7; apply block_nonempty|done|].
  cbn [rbind].
  destruct (sortSet_ok (bm_left m) (bm_right m) (py_range (zlen (bm_left_blocks m))) UA PA Hlr HUA) as (users & -> & Hu).
  destruct (sortSet_ok (bm_left m) (bm_right m) (py_range (zlen (bm_right_blocks m))) PA UA Hlr) as (perms & -> & Hp).
  { intros e He. rewrite Hlr. by apply HPA. }
  cbn [rbind]. eexists. split; [reflexivity|]. unfold good.
  cbn [bm_A bm_rows bm_cols bm_left bm_right bm_left_blocks bm_right_blocks bm_left_cb bm_right_cb bm_left_perm bm_right_perm bm_C]. done.
Qed.

Lemma kept_range left right (n : Z) (proj : list Z * list Z -> list Z) (cs : list (list Z)) :
  (forall p, p ∈ zip left right -> proj p ∈ cs) -> (forall c x, c ∈ cs -> x ∈ c -> 0 <= x < n) ->
  forall x, x ∈ concat (createBlocks (map proj (kept left right))) -> 0 <= x < n.
Proof.
  intros Hp Hr x Hx. apply elem_of_blocks in Hx as (c & Hc & Hx). apply elem_of_map in Hc as (p & -> & Hin).
  unfold kept in Hin. apply elem_of_list_filter in Hin as [_ Hin]. by apply (Hr (proj p)); [apply Hp|].
Qed.

Lemma good_perms left right A rows cols m : good left right A rows cols m ->
  (forall c x, c ∈ left -> x ∈ c -> 0 <= x < rows) -> (forall c x, c ∈ right -> x ∈ c -> 0 <= x < cols) ->
  exists p q, getLeftPermutation m = Ok p /\ getRightPermutation m = Ok q /\ p ≡ₚ py_range rows /\ q ≡ₚ py_range cols /\
    (exists bs rest, p = concat bs ++ rest /\ bs ≡ₚ createBlocks (map fst (kept left right)) /\ rest `sublist_of` py_range rows) /\
    (exists bs rest, q = concat bs ++ rest /\ bs ≡ₚ createBlocks (map snd (kept left right)) /\ rest `sublist_of` py_range cols).
Proof.
  intros (H1 & H2 & H3 & H4 & H5 & H6 & H7 & H8 & H9 & H10 & H11 & H12) Hl Hr.
  unfold getLeftPermutation, getRightPermutation. rewrite H2, H3.
  destruct (final_permutation_ok (bm_left_perm m) (bm_left_blocks m) rows H10) as (p & Ep & Pp & Sp).
  { rewrite H6. apply NoDup_blocks. }
  { rewrite H6, H4. apply (kept_range left right rows fst left); [|done]. intros [a b] Hin. apply elem_of_zip_l in Hin. done. }
  destruct (final_permutation_ok (bm_right_perm m) (bm_right_blocks m) cols H11) as (q & Eq & Pq & Sq).
  { rewrite H7. apply NoDup_blocks. }
  { rewrite H7, H5. apply (kept_range left right cols snd right); [|done]. intros [a b] Hin. apply elem_of_zip_r in Hin. done. }
  exists p, q. rewrite <- H4, <- H5, <- H6, <- H7. done.
Qed.

Lemma C56_permutations_proof : forall (shL shR : list Z -> list Z) (left right A : list (list Z)) (rows cols : Z),
  (forall l, shL l ≡ₚ l) -> (forall l, shR l ≡ₚ l) -> zlen left <= zlen right ->
  has_shape A rows cols -> 0 <= cols ->
  (forall c x, c ∈ left -> x ∈ c -> 0 <= x < rows) -> (forall c x, c ∈ right -> x ∈ c -> 0 <= x < cols) ->
  exists m m', new_blockmat shL shR left right A rows cols = Ok m /\ order m = Ok m' /\
    forall b, b ∈ [m; m'] -> exists p q M,
      getLeftPermutation b = Ok p /\ getRightPermutation b = Ok q /\ p ≡ₚ py_range rows /\ q ≡ₚ py_range cols /\
      (exists bs rest, p = concat bs ++ rest /\ bs ≡ₚ createBlocks (map fst (kept left right)) /\ rest `sublist_of` py_range rows) /\
      (exists bs rest, q = concat bs ++ rest /\ bs ≡ₚ createBlocks (map snd (kept left right)) /\ rest `sublist_of` py_range cols) /\
      returnOriginalMatrix b = Ok M /\ has_shape M rows cols /\
      forall (i j : nat) x y v, p !! i = Some x -> q !! j = Some y -> (cell M i j v <-> cell A (Z.to_nat x) (Z.to_nat y) v).
Proof.
  intros shL shR left right A rows cols HL HR Hlen [HA HAc] Hcols Hl Hr.
  destruct (new_blockmat_ok shL shR left right A rows cols HL HR Hlen) as (m & Em & Gm).
  destruct (order_ok _ _ _ _ _ _ Gm) as (m' & Em' & Gm'). exists m, m'. split; [done|]. split; [done|].
  intros b Hb. assert (Gb : good left right A rows cols b).
  { rewrite !elem_of_cons in Hb. destruct Hb as [->|[->|Hb]]; [done|done|inversion Hb]. }
  destruct (good_perms _ _ _ _ _ _ Gb Hl Hr) as (p & q & Ep & Eq & Pp & Pq & Sp & Sq). exists p, q.
  destruct Gb as (G1 & G2 & G3 & _). unfold returnOriginalMatrix. rewrite Ep, Eq, G1, G3. cbn [rbind].
  assert (Hpr : forall x, x ∈ p -> 0 <= x < rows) by (intros x Hx; rewrite Pp in Hx; by apply elem_of_py_range).
  assert (Hqr : forall x, x ∈ q -> 0 <= x < cols) by (intros x Hx; rewrite Pq in Hx; by apply elem_of_py_range).
  destruct (rmap_total (py_index A) (fun x row => A !! Z.to_nat x = Some row) p) as (rws & -> & Hrws).
  { intros x Hx. destruct (py_index_in_range A x) as (row & E & El); [rewrite HA; by apply Hpr|]. eauto. }
  cbn [rbind]. assert (zlen q = cols) as Hq by (unfold zlen; rewrite (Permutation_length Pq), length_py_range; lia).
  rewrite Hq, Z.eqb_refl. cbn [negb].
  destruct (rmap_total (fun row => rmap (py_index row) q) (fun row row' => Forall2 (fun y v => row !! Z.to_nat y = Some v) q row') rws) as (M & EM & HM).
  { intros row Hrow. apply rmap_total. intros y Hy. apply elem_of_list_lookup in Hrow as [k Hk].
    destruct (Forall2_lookup_r _ _ _ _ _ Hrws Hk) as (x & _ & Hx).
    destruct (py_index_in_range row y) as (v & E & El); [rewrite (HAc row) by (by eapply elem_of_list_lookup_2); by apply Hqr|]. eauto. }
  exists M. split; [done|]. split; [done|]. split; [done|]. split; [done|]. split; [done|]. split; [done|]. split; [done|]. split; [split|].
  - unfold zlen. rewrite <- (Forall2_length _ _ _ HM), <- (Forall2_length _ _ _ Hrws), (Permutation_length Pp), length_py_range.
    pose proof (zlen_nonneg A). lia.
  - intros row' Hin. apply elem_of_list_lookup in Hin as [k Hk]. destruct (Forall2_lookup_r _ _ _ _ _ HM Hk) as (row & _ & H).
    unfold zlen. rewrite <- (Forall2_length _ _ _ H). done.
  - intros i j x y v Hx Hy. unfold cell. split.
    + intros (row' & Hi & Hj). destruct (Forall2_lookup_r _ _ _ _ _ HM Hi) as (row & Hrow & Hf).
      pose proof (Forall2_lookup_lr _ _ _ _ _ _ Hrws Hx Hrow) as HAx. cbn beta in HAx. exists row. split; [done|].
      exact (Forall2_lookup_lr _ _ _ _ _ _ Hf Hy Hj).
    + intros (row & HAx & Hv). destruct (Forall2_lookup_l _ _ _ _ _ Hrws Hx) as (row0 & Hrow & HAx'). cbn beta in HAx'.
      assert (row0 = row) as -> by congruence. destruct (Forall2_lookup_l _ _ _ _ _ HM Hrow) as (row' & Hi & Hf). exists row'. split; [done|].
      destruct (Forall2_lookup_l _ _ _ _ _ Hf Hy) as (w & Hw & Hw'). cbn beta in Hw'. rewrite Hw. congruence.
Qed.


Lemma C56_order_deterministic_proof : forall (shL shR shL' shR' : list Z -> list Z) (left right A : list (list Z)) (rows cols : Z) m m',
  new_blockmat shL shR left right A rows cols = Ok m -> new_blockmat shL' shR' left right A rows cols = Ok m' ->
  order m = order m'.
Proof.
  intros shL shR shL' shR' left right A rows cols m m'. unfold new_blockmat.
  destruct (keep_clusters left right) as [[ls rs]|]; cbn [rbind]; [|done].
  destruct (createBlockedClusters ls (createBlocks ls)) as [lcb|]; cbn [rbind]; [|done].
  destruct (createBlockedClusters rs (createBlocks rs)) as [rcb|]; cbn [rbind]; [|done].
  destruct (createBlockBlockAdj _ _ ls rs) as [C|]; cbn [rbind]; [|done].
  intros E E'. injection E as <-. injection E' as <-. done.
Qed.


Lemma C56_missing_right_proof : forall (shL shR : list Z -> list Z) (left right A : list (list Z)) (rows cols : Z) (i : nat) c,
  left !! i = Some c -> c <> [] -> (length right <= i)%nat ->
  new_blockmat shL shR left right A rows cols = Err IndexError.
Proof.
  intros shL shR left right A rows cols i c Hi Hc Hr. unfold new_blockmat.
  assert (keep_clusters left right = Err IndexError) as ->; [|done]. unfold keep_clusters.
  assert (Hgen : forall l s, (forall k, k ∈ l -> 0 <= k < zlen left) -> Z.of_nat i ∈ l -> rfold (fun '(ls, rs) i =>
    let! l := py_index left i in
    if bool_decide (l = []) then Ok (ls, rs)
    else let! r := py_index right i in
         if bool_decide (r = []) then Ok (ls, rs) else Ok (ls ++ [l], rs ++ [r])) s l = Err IndexError).
  { induction l as [|k l IH]; intros [ls rs] Hk Hin; [inversion Hin|]. cbn [rfold].
    destruct (py_index_in_range left k) as (lk & E & El); [apply Hk; left|]. rewrite E. cbn [rbind].
    destruct (decide (k = Z.of_nat i)) as [->|Hne].
    - rewrite Nat2Z.id in El. assert (lk = c) as -> by congruence. rewrite bool_decide_eq_false_2 by done.
      rewrite py_index_high by (unfold zlen; lia). done.
    - apply elem_of_cons in Hin as [Hin|Hin]; [congruence|].
      assert (Hk' : forall k', k' ∈ l -> 0 <= k' < zlen left) by (intros k' Hk'; apply Hk; by right).
      destruct (bool_decide (lk = [])); [by apply IH|].
      destruct (py_index right k) as [r|e] eqn:Er; cbn [rbind].
      + destruct (bool_decide (r = [])); by apply IH.
      + specialize (Hk k ltac:(left)). unfold py_index in Er. destruct (Z.ltb_spec k 0); [lia|]. destruct (Z.ltb_spec k 0); [lia|]. cbn [orb] in Er.
        destruct (zlen right <=? k); [congruence|]. destruct (right !! Z.to_nat k); congruence. }
  apply Hgen.
  - intros k Hk. by apply elem_of_py_range.
  - apply elem_of_py_range. apply lookup_lt_Some in Hi. unfold zlen. lia.
Qed.


Lemma C62_adjacency_proof : forall (shL shR : list Z -> list Z) (left right A : list (list Z)) (rows cols : Z) m,
  (forall l, shL l ≡ₚ l) -> (forall l, shR l ≡ₚ l) -> zlen left <= zlen right ->
  new_blockmat shL shR left right A rows cols = Ok m ->
  let lb := createBlocks (map fst (kept left right)) in
  let rb := createBlocks (map snd (kept left right)) in
  has_shape (bm_C m) (zlen lb) (zlen rb) /\
  forall (i k : nat) bl br x y, lb !! i = Some bl -> rb !! k = Some br -> x ∈ bl -> y ∈ br ->
    exists v, cell (bm_C m) i k v /\
      ((exists l r, (l, r) ∈ kept left right /\ x ∈ l /\ y ∈ r) -> v = zlen bl * zlen br /\ 0 < v) /\
      ((forall l r, (l, r) ∈ kept left right -> x ∈ l -> y ∉ r) -> v = 0).
Proof.
  intros shL shR left right A rows cols m HL HR Hlen Em lb rb.
  destruct (new_blockmat_ok shL shR left right A rows cols HL HR Hlen) as (m0 & Em0 & G). assert (m0 = m) as -> by congruence.
  destruct G as (_ & _ & _ & G4 & G5 & G6 & G7 & _ & _ & _ & _ & G12). rewrite G6, G7, G4, G5 in G12. fold lb rb in G12.
  destruct (adj_ok lb rb (map fst (kept left right)) (map snd (kept left right))) as (C & E & Hs & Hc); [by rewrite !zlen_map|].
  assert (C = bm_C m) as -> by congruence. split; [done|]. intros i k bl br x y Hi Hk Hx Hy.
  specialize (Hc i k bl br Hi Hk). eexists. split; [exact Hc|].
  assert (Hbl : bl ∈ lb) by by eapply elem_of_list_lookup_2. assert (Hbr : br ∈ rb) by by eapply elem_of_list_lookup_2.
  assert (Hz : zip (map fst (kept left right)) (map snd (kept left right)) = kept left right).
  { generalize (kept left right). intros l. induction l as [|[a b] l IH]; [done|]. cbn. by rewrite <- IH at 3. }
  rewrite Hz in *.
  assert (Hsz : forall cl b0, b0 ∈ createBlocks cl -> Z.of_nat (size (py_set b0)) = zlen b0).
  { intros cl b0 Hb0. unfold py_set, zlen. f_equal. apply size_list_to_set. pose proof (NoDup_blocks cl) as Hn.
    apply elem_of_list_split in Hb0 as (l1 & l2 & E0). rewrite E0, concat_app in Hn. cbn [concat] in Hn.
    apply NoDup_app in Hn as (_ & _ & Hn). by apply NoDup_app in Hn as (Hn & _). }
  rewrite (Hsz _ _ Hbl), (Hsz _ _ Hbr). split.
  - intros (l & r & Hin & Hxl & Hyr). rewrite decide_True.
    + split; [done|]. assert (0 < zlen bl /\ 0 < zlen br) as [? ?]; [|lia].
      unfold zlen. destruct bl, br; cbn; try lia; [inversion Hx|inversion Hx|inversion Hy].
    + apply list.Exists_exists. exists (l, r). split; [done|]. cbn [fst snd]. rewrite !subset_b_true. split.
      * apply (block_in_cluster (map fst (kept left right)) bl l x); try done. apply elem_of_map. by exists (l, r).
      * apply (block_in_cluster (map snd (kept left right)) br r y); try done. apply elem_of_map. by exists (l, r).
  - intros Hno. rewrite decide_False; [done|]. intros Hex. apply list.Exists_exists in Hex as ([l r] & Hin & H1 & H2). cbn [fst snd] in *.
    rewrite subset_b_true in H1, H2. apply (Hno l r Hin); auto.
Qed.


Lemma C63_low_rank_proof : forall (shL shR : list Z -> list Z) (left right A : list (list Z)) (rows cols : Z),
  (forall l, shL l ≡ₚ l) -> (forall l, shR l ≡ₚ l) -> zlen left <= zlen right ->
  has_shape A rows cols -> 0 <= cols ->
  (forall c x, c ∈ left -> x ∈ c -> 0 <= x < rows) -> (forall c x, c ∈ right -> x ∈ c -> 0 <= x < cols) ->
  exists m m', new_blockmat shL shR left right A rows cols = Ok m /\ order m = Ok m' /\
    forall b, b ∈ [m; m'] -> exists p q M,
      getLeftPermutation b = Ok p /\ getRightPermutation b = Ok q /\ plotMatrix b = Ok M /\ has_shape M rows cols /\
      forall (i j : nat) x y, p !! i = Some x -> q !! j = Some y ->
        exists v, cell M i j v /\
          ((v = 0 /\ forall l r, (l, r) ∈ kept left right -> x ∈ l -> y ∉ r) \/
           (1 <= v /\ (exists l r, kept left right !! Z.to_nat (v - 1) = Some (l, r) /\ x ∈ l /\ y ∈ r) /\
            forall (k : nat) l r, v <= Z.of_nat k -> kept left right !! k = Some (l, r) -> x ∈ l -> y ∉ r)).
Proof.
  intros shL shR left right A rows cols HL HR Hlen [HA HAc] Hcols Hl Hr.
  destruct (new_blockmat_ok shL shR left right A rows cols HL HR Hlen) as (m & Em & Gm).
  destruct (order_ok _ _ _ _ _ _ Gm) as (m' & Em' & Gm'). exists m, m'. split; [done|]. split; [done|].
  intros b Hb. assert (Gb : good left right A rows cols b).
  { rewrite !elem_of_cons in Hb. destruct Hb as [->|[->|Hb]]; [done|done|inversion Hb]. }
  destruct (good_perms _ _ _ _ _ _ Gb Hl Hr) as (p & q & Ep & Eq & Pp & Pq & _ & _). exists p, q.
  destruct Gb as (G1 & G2 & G3 & G4 & G5 & G6 & G7 & _).
  assert (Hrows : 0 <= rows) by (rewrite <- HA; apply zlen_nonneg).
  assert (Hpos : forall (perm : list Z) n (cs : list (list Z)), perm ≡ₚ py_range n -> (forall c x, c ∈ cs -> x ∈ c -> 0 <= x < n) ->
    exists ys, rmap (rmap (list_index perm)) cs = Ok ys /\
      Forall2 (fun c ks => forall k : nat, Z.of_nat k ∈ ks <-> exists x, perm !! k = Some x /\ x ∈ c) cs ys /\
      forall ks k, ks ∈ ys -> k ∈ ks -> 0 <= k < n).
  { intros perm n cs HP Hcs. assert (HnP : NoDup perm) by (rewrite HP; apply NoDup_py_range).
    assert (HlP : length perm = Z.to_nat n) by (rewrite (Permutation_length HP); apply length_py_range).
    destruct (rmap_total (rmap (list_index perm)) (fun c ks => (forall k : nat, Z.of_nat k ∈ ks <-> exists x, perm !! k = Some x /\ x ∈ c) /\
      forall k, k ∈ ks -> 0 <= k < n) cs) as (ys & E & Hys).
    - intros c Hc. destruct (rmap_total (list_index perm) (fun x k => exists k' : nat, k = Z.of_nat k' /\ perm !! k' = Some x) c) as (ks & Ek & Hks).
      { intros x Hx. destruct (list_index_ok perm x) as (k & E & Hk); [rewrite HP; apply elem_of_py_range; by apply (Hcs c)|]. eauto. }
      exists ks. split; [done|]. split.
      + intros k. split.
        * intros Hin. apply elem_of_list_lookup in Hin as [t Ht]. destruct (Forall2_lookup_r _ _ _ _ _ Hks Ht) as (x & Hx & k' & Ek' & Hk').
          assert (k' = k) as -> by lia. exists x. split; [done|by eapply elem_of_list_lookup_2].
        * intros (x & Hk & Hx). apply elem_of_list_lookup in Hx as [t Ht]. destruct (Forall2_lookup_l _ _ _ _ _ Hks Ht) as (k1 & Hk1 & k' & -> & Hk').
          assert (k' = k) as -> by (by eapply NoDup_lookup). by eapply elem_of_list_lookup_2.
      + intros k Hin. apply elem_of_list_lookup in Hin as [t Ht]. destruct (Forall2_lookup_r _ _ _ _ _ Hks Ht) as (x & Hx & k' & -> & Hk').
        apply lookup_lt_Some in Hk'. lia.
    - exists ys. split; [done|]. split.
      + eapply Forall2_impl; [exact Hys|]. intros c ks [H _]. exact H.
      + intros ks k Hks Hk. apply elem_of_list_lookup in Hks as [t Ht]. destruct (Forall2_lookup_r _ _ _ _ _ Hys Ht) as (c & _ & _ & H). by apply H. }
  assert (Hkl : forall c x, c ∈ map fst (kept left right) -> x ∈ c -> 0 <= x < rows).
  { intros c x Hc. apply elem_of_map in Hc as ([l r] & -> & Hin). unfold kept in Hin. apply elem_of_list_filter in Hin as [_ Hin]. apply elem_of_zip_l in Hin. by apply Hl. }
  assert (Hkr : forall c x, c ∈ map snd (kept left right) -> x ∈ c -> 0 <= x < cols).
  { intros c x Hc. apply elem_of_map in Hc as ([l r] & -> & Hin). unfold kept in Hin. apply elem_of_list_filter in Hin as [_ Hin]. apply elem_of_zip_r in Hin. by apply Hr. }
  assert (Hbk : forall cs n, (forall c x, c ∈ cs -> x ∈ c -> 0 <= x < n) -> forall c x, c ∈ createBlocks cs -> x ∈ c -> 0 <= x < n).
  { intros cs n H c x Hc Hx. assert (clustered cs x) as (c' & Hc' & Hx') by (apply elem_of_blocks, elem_of_concat; eauto). by apply (H c'). }
  destruct (Hpos p rows (bm_left_blocks b) Pp) as (y1 & E1 & _); [rewrite G6, G4; by apply Hbk|].
  destruct (Hpos q cols (bm_right_blocks b) Pq) as (y2 & E2 & _); [rewrite G7, G5; by apply Hbk|].
  destruct (Hpos p rows (bm_left b) Pp) as (lcs & E3 & F3 & R3); [by rewrite G4|].
  destruct (Hpos q cols (bm_right b) Pq) as (rcs & E4 & F4 & R4); [by rewrite G5|].
  unfold plotMatrix. rewrite Ep, Eq. cbn [rbind]. rewrite E1, E2, E3, E4. cbn [rbind]. rewrite G2, G3.
  assert (Hl3 : length (bm_left b) = length lcs) by by eapply Forall2_length.
  assert (Hl4 : length (bm_right b) = length rcs) by by eapply Forall2_length.
  assert (Hl5 : length (bm_left b) = length (bm_right b)) by by rewrite G4, G5, !map_length.
  destruct (effect_fold rows cols (fun M i => let! lc := py_index lcs i in let! rc := py_index rcs i in set_block M lc rc (i + 1))
    (fun i a b => if decide (Z.of_nat a ∈ lcs !!! Z.to_nat i /\ Z.of_nat b ∈ rcs !!! Z.to_nat i) then Some (i + 1) else None)
    (py_range (zlen (bm_left b)))) with (zeros rows cols) as (M & EM & HM & HMc).
  { intros i Hi. apply elem_of_py_range in Hi. destruct (py_index_in_range lcs i) as (lc & -> & Llc); [unfold zlen in *; lia|].
    destruct (py_index_in_range rcs i) as (rc & -> & Lrc); [unfold zlen in *; lia|]. cbn [rbind].
    rewrite (list_lookup_total_correct _ _ _ Llc), (list_lookup_total_correct _ _ _ Lrc). apply set_block_effect.
    - intros k. apply R3. by eapply elem_of_list_lookup_2.
    - intros k. apply R4. by eapply elem_of_list_lookup_2. }
  { by apply zeros_shape. }
  exists M. split; [done|]. split; [done|]. split; [exact EM|]. split; [done|].
  intros i j x y Hx Hy.
  assert (Hmem : forall (k : nat) l r, kept left right !! k = Some (l, r) -> (Z.of_nat i ∈ lcs !!! k /\ Z.of_nat j ∈ rcs !!! k <-> x ∈ l /\ y ∈ r)).
  { intros k l r Hk.
    assert (Kl : bm_left b !! k = Some l) by (rewrite G4; apply list_lookup_fmap_Some; by exists (l, r)).
    assert (Kr : bm_right b !! k = Some r) by (rewrite G5; apply list_lookup_fmap_Some; by exists (l, r)).
    destruct (Forall2_lookup_l _ _ _ _ _ F3 Kl) as (lc & Lc & Hlc). destruct (Forall2_lookup_l _ _ _ _ _ F4 Kr) as (rc & Rc & Hrc).
    rewrite (list_lookup_total_correct _ _ _ Lc), (list_lookup_total_correct _ _ _ Rc), Hlc, Hrc. split.
    - intros [(x' & Hx' & ?) (y' & Hy' & ?)]. split; congruence.
    - intros [? ?]. split; eauto. }
  assert (Hkk : zlen (bm_left b) = zlen (kept left right)) by by rewrite G4, zlen_map.
  destruct (list.last (omap (fun k => if decide (Z.of_nat i ∈ lcs !!! Z.to_nat k /\ Z.of_nat j ∈ rcs !!! Z.to_nat k) then Some (k + 1) else None) (py_range (zlen (bm_left b))))) as [v|] eqn:Ev.
  - exists v. split; [apply HMc; by rewrite Ev|]. right. apply last_omap_Some in Ev as (l1 & k & l2 & El & Hk & Hl2).
    destruct (decide _) as [Hd|]; [|done]. injection Hk as <-.
    assert (Hkr' : k ∈ py_range (zlen (bm_left b))) by (rewrite El; apply elem_of_app; right; left). apply elem_of_py_range in Hkr'.
    destruct (lookup_lt_is_Some_2 (kept left right) (Z.to_nat k)) as [[l r] Hkept]; [unfold zlen in *; lia|].
    split; [lia|]. split.
    + exists l, r. replace (k + 1 - 1) with k by lia. split; [done|]. by apply (Hmem (Z.to_nat k)).
    + intros k' l' r' Hk' Hkept' Hxl Hyr.
      assert (Hin : Z.of_nat k' ∈ l2).
      { assert (Hin : Z.of_nat k' ∈ py_range (zlen (bm_left b))) by (apply elem_of_py_range; apply lookup_lt_Some in Hkept'; unfold zlen in *; lia).
        assert (Hlen1 : zlen l1 = k).
        { assert (Hlk : py_range (zlen (bm_left b)) !! length l1 = Some k) by by rewrite El, list_lookup_middle.
          apply lookup_lt_Some in Hlk as Hlt. rewrite length_py_range in Hlt. rewrite <- (Nat2Z.id (length l1)), lookup_py_range in Hlk by (unfold zlen in *; lia). unfold zlen. congruence. }
        assert (Hlk : py_range (zlen (bm_left b)) !! k' = Some (Z.of_nat k')).
        { apply elem_of_py_range in Hin. rewrite <- (Nat2Z.id k') at 1. by rewrite lookup_py_range. }
        rewrite El, lookup_app_r in Hlk by (unfold zlen in *; lia).
        destruct (k' - length l1)%nat as [|t] eqn:Et; [unfold zlen in *; lia|]. cbn in Hlk. by eapply elem_of_list_lookup_2. }
      specialize (Hl2 _ Hin). rewrite Nat2Z.id, decide_True in Hl2; [done|]. by apply (Hmem k' l' r').
  - destruct (shape_cell M rows cols i j HM) as [_ Hz]. destruct Hz as [v Hv].
    { apply lookup_lt_Some in Hx, Hy. rewrite (Permutation_length Pp), length_py_range in Hx. rewrite (Permutation_length Pq), length_py_range in Hy. lia. }
    exists v. split; [done|]. left. apply HMc in Hv. rewrite Ev in Hv. split; [by eapply cell_zeros|].
    intros l r Hin Hxl Hyr. apply elem_of_list_lookup in Hin as [k Hk]. rewrite last_omap_None in Ev. specialize (Ev (Z.of_nat k)).
    rewrite Nat2Z.id, decide_True in Ev; [|by apply (Hmem k l r)]. discriminate Ev. apply elem_of_py_range. apply lookup_lt_Some in Hk. unfold zlen in *. lia.
Qed.
