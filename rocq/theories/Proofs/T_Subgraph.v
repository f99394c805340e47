(** Proofs of the property theorems of Properties/P_Subgraph.v. *)
From Verif.Model Require Import PyBase Sparse Utils Graph Cliques Subgraph.
From Verif.Spec Require Import SMatrix SGraph SSubgraph.
Open Scope Z_scope.
From Verif.Proofs Require Import PBase T_Graph.

Lemma C24_unknown_backend_proof : forall (ord : gset Z -> list Z) (g : graph) (alpha : Qc),
  enumerate_probable_cliques ord g alpha OtherBackend = Err ValueError.
Proof. done. Qed.


Lemma elem_of_perm2 (l : list Z) u v : (u, v) ∈ permutations2 l <-> exists i j, i <> j /\ l !! i = Some u /\ l !! j = Some v.
Proof.
  unfold permutations2. rewrite elem_of_list_In, in_concat. setoid_rewrite <- elem_of_list_In.
  setoid_rewrite elem_of_lookup_imap. split.
  - intros (m & (i & x & -> & Hx) & Hm). apply elem_of_list_fmap in Hm as (y & [= -> ->] & Hy).
    apply elem_of_app in Hy as [Hy|Hy]; apply elem_of_list_lookup in Hy as (j & Hj).
    + apply lookup_take_Some in Hj as [Hj Hl]. exists i, j. repeat split; [lia|done|done].
    + rewrite lookup_drop in Hj. exists i, (S i + j)%nat. repeat split; [lia|done|done].
  - intros (i & j & Hne & Hi & Hj). exists (map (pair u) (take i l ++ drop (S i) l)). split; [by exists i, u|].
    apply elem_of_list_fmap. exists v. split; [done|]. apply elem_of_app.
    destruct (decide (j < i)%nat) as [Hlt|Hge].
    + left. apply elem_of_list_lookup. exists j. rewrite lookup_take by done. done.
    + right. apply elem_of_list_lookup. exists (j - S i)%nat. rewrite lookup_drop. replace (S i + (j - S i))%nat with j by lia. done.
Qed.

Lemma delete_NoDup (i : nat) (l : list Z) : NoDup l -> NoDup (take i l ++ drop (S i) l).
Proof.
  intros H. apply NoDup_app. split; [|split].
  - rewrite <- (take_drop i l) in H. apply NoDup_app in H as (? & ? & ?). done.
  - intros x Hx Hd. rewrite <- (take_drop i l) in H. apply NoDup_app in H as (_ & H & _). apply (H x Hx).
    apply elem_of_list_lookup in Hd as (k & Hk). apply elem_of_list_lookup.
    rewrite lookup_drop in Hk. exists (S k). rewrite lookup_drop. by replace (i + S k)%nat with (S i + k)%nat by lia.
  - rewrite <- (take_drop (S i) l) in H. apply NoDup_app in H as (? & ? & ?). done.
Qed.

Lemma concat_imap_NoDup (f : nat -> Z -> list (Z * Z)) (l : list Z) : NoDup l -> (forall i x, NoDup (f i x)) ->
  (forall i x p, p ∈ f i x -> fst p = x) -> NoDup (concat (imap f l)).
Proof.
  intros H. revert f. induction H as [|x l Hx H IH]; intros f Hf Hp; [constructor|]. cbn [imap concat].
  apply NoDup_app. split; [apply Hf|]. split; [|apply IH; [intros i y; apply Hf|intros i y p; apply Hp]].
  intros p Hp1 Hp2. apply Hp in Hp1. apply elem_of_list_In, in_concat in Hp2 as (m & Hm & Hin).
  apply elem_of_list_In, elem_of_lookup_imap in Hm as (i & y & -> & Hy). apply elem_of_list_In, Hp in Hin.
  apply Hx. rewrite <- Hp1, Hin. by eapply elem_of_list_lookup_2.
Qed.

Lemma concat_imap_length (f : nat -> Z -> list (Z * Z)) (l : list Z) (k : Z) :
  (forall i x, l !! i = Some x -> zlen (f i x) = k) -> zlen (concat (imap f l)) = zlen l * k.
Proof.
  revert f. induction l as [|x l IH]; intros f Hf; [done|]. cbn [imap concat].
  assert (zlen (f 0%nat x ++ concat (imap (f ∘ S) l)) = k + zlen l * k) as ->.
  { unfold zlen at 1. rewrite app_length, Nat2Z.inj_add. fold (zlen (f 0%nat x)). fold (zlen (concat (imap (f ∘ S) l))).
    rewrite (Hf 0%nat x) by done. rewrite IH; [done|]. intros i y Hy. by apply (Hf (S i)). }
  unfold zlen. cbn [length]. lia.
Qed.

Lemma perm2_NoDup (l : list Z) : NoDup l -> NoDup (permutations2 l).
Proof.
  intros H. apply concat_imap_NoDup; [done| |].
  - intros i x. apply (NoDup_fmap_2 (pair x)). by apply delete_NoDup.
  - intros i x p Hp. apply elem_of_list_fmap in Hp as (y & -> & _). done.
Qed.
Lemma perm2_length (l : list Z) : zlen (permutations2 l) = zlen l * (zlen l - 1).
Proof.
  apply concat_imap_length. intros i x Hx. apply lookup_lt_Some in Hx. unfold zlen.
  rewrite map_length, app_length, take_length, drop_length. lia.
Qed.

(** all ordered pairs of a set of nodes *)
Lemma sub_edges_perm (g : graph) (ns : list Z) : NoDup ns -> (forall a, ~ is_edge g a a) ->
  (forall u v, (u, v) ∈ permutations2 ns -> is_edge g u v) ->
  List.filter (fun e => bool_decide (fst e ∈ ns) && bool_decide (snd e ∈ ns)) (edges g) ≡ₚ permutations2 ns.
Proof.
  intros Hn Hl He. apply NoDup_Permutation; [apply NoDup_ListNoDup, List.NoDup_filter, NoDup_ListNoDup; unfold edges; apply NoDup_elements|by apply perm2_NoDup|].
  intros [u v]. rewrite elem_of_list_In, filter_In, <- elem_of_list_In. unfold edges. rewrite elem_of_elements, elem_of_dom.
  cbn [fst snd]. rewrite andb_true_iff, !bool_decide_eq_true. rewrite elem_of_perm2. split.
  - intros [Hw [Hu Hv]]. apply elem_of_list_lookup in Hu as (i & Hi), Hv as (j & Hj). exists i, j. repeat split; try done.
    intros ->. rewrite Hi in Hj. injection Hj as ->. by apply (Hl v).
  - intros (i & j & Hne & Hi & Hj). split; [apply He, elem_of_perm2; eauto|].
    split; by eapply elem_of_list_lookup_2.
Qed.

Lemma filter_split {A} (f : A -> bool) (l : list A) : zlen (List.filter f l) + zlen (List.filter (fun x => negb (f x)) l) = zlen l.
Proof. induction l as [|x l IH]; [done|]. cbn [List.filter]. destruct (f x); unfold zlen in *; cbn [negb length] in *; lia. Qed.

Lemma filter_filter_andb {A} (f h : A -> bool) (l : list A) : List.filter (fun x => f x && h x) l = List.filter h (List.filter f l).
Proof. induction l as [|x l IH]; [done|]. cbn [List.filter]. destruct (f x); cbn [andb List.filter]; [destruct (h x)|]; by rewrite IH. Qed.

Lemma filter_true {A} (l : list A) : List.filter (fun _ => true) l = l.
Proof. induction l as [|x l IH]; [done|]. cbn [List.filter]. by rewrite IH. Qed.
Lemma zlen_perm {A} (l k : list A) : l ≡ₚ k -> zlen l = zlen k.
Proof. intros H. unfold zlen. by rewrite (Permutation_length H). Qed.
Lemma zlen_filter_perm {A} (f : A -> bool) (l k : list A) : l ≡ₚ k -> zlen (List.filter f l) = zlen (List.filter f k).
Proof.
  induction 1 as [|x l k H IH|x y l|l k m _ IH1 _ IH2]; [done| | |congruence]; cbn [List.filter].
  - destruct (f x); unfold zlen in *; cbn [length]; lia.
  - destruct (f x), (f y); unfold zlen in *; cbn [length]; lia.
Qed.

Lemma perm2_half (ns : list Z) : NoDup ns -> 2 * zlen (List.filter (fun e => fst e <=? snd e) (permutations2 ns)) = zlen ns * (zlen ns - 1).
Proof.
  intros Hn. rewrite <- perm2_length. rewrite <- (filter_split (fun e => fst e <=? snd e) (permutations2 ns)).
  enough (map (fun e => (snd e, fst e)) (List.filter (fun e => fst e <=? snd e) (permutations2 ns))
    ≡ₚ List.filter (fun e => negb (fst e <=? snd e)) (permutations2 ns)) as E.
  { apply Permutation_length in E. rewrite map_length in E. unfold zlen. lia. }
  pose proof (perm2_NoDup _ Hn) as Hp. apply NoDup_Permutation.
  - apply NoDup_fmap_2_strong; [intros [? ?] [? ?] _ _ [= -> ->]; done|]. by apply NoDup_ListNoDup, List.NoDup_filter, NoDup_ListNoDup.
  - by apply NoDup_ListNoDup, List.NoDup_filter, NoDup_ListNoDup.
  - intros [u v]. rewrite elem_of_list_fmap. setoid_rewrite elem_of_list_In. setoid_rewrite filter_In. setoid_rewrite <- elem_of_list_In.
    cbn [fst snd]. split.
    + intros ([a b] & [= -> ->] & Hin & Hle). cbn [fst snd] in *. apply elem_of_perm2 in Hin as (i & j & Hne & Hi & Hj).
      split; [apply elem_of_perm2; exists j, i; repeat split; congruence|].
      apply Z.leb_le in Hle. destruct (decide (a = b)) as [->|]; [|destruct (Z.leb_spec b a); [lia|done]].
      exfalso. apply Hne. exact (proj1 (NoDup_alt ns) Hn _ _ _ Hi Hj).
    + intros [Hin Hgt]. exists (v, u). split; [done|]. apply elem_of_perm2 in Hin as (i & j & Hne & Hi & Hj).
      split; [apply elem_of_perm2; exists j, i; repeat split; congruence|]. cbn [fst snd].
      destruct (Z.leb_spec u v); [done|]. apply Z.leb_le. lia.
Qed.

Lemma perm2_total (W : Z -> Z -> Qc) (ns : list Z) : NoDup ns ->
  np_sum (map (fun uv => W (fst uv) (snd uv)) (permutations2 ns)) = pair_total W ns.
Proof.
  intros Hn. unfold permutations2, pair_total.
  assert (forall a b, np_sum (a ++ b) = (np_sum a + np_sum b)%Qc) as Happ.
  { intros a b. unfold np_sum. induction a as [|x a IH]; cbn [app foldr]; [by rewrite Qcplus_0_l|]. rewrite IH. by rewrite Qcplus_assoc. }
  assert (forall f l, (forall i x, l !! i = Some x -> np_sum (map (fun uv => W (fst uv) (snd uv)) (f i x)) =
       foldr (fun v a => if decide (x = v) then a else (W x v + a)%Qc) 0%Qc ns) ->
     np_sum (map (fun uv => W (fst uv) (snd uv)) (concat (imap f l))) =
       foldr (fun u acc => (foldr (fun v a => if decide (u = v) then a else (W u v + a)%Qc) 0%Qc ns + acc)%Qc) 0%Qc l) as G.
  { intros f l. revert f. induction l as [|x l IH]; intros f Hf; [done|]. cbn [imap concat foldr]. rewrite map_app, Happ.
    rewrite (Hf 0%nat x) by done. f_equal. apply IH. intros i y Hy. by apply (Hf (S i)). }
  apply G. intros i x Hx. rewrite map_map. cbn [fst snd].
  assert (forall (l : list Z), x ∉ l -> foldr (fun v a => if decide (x = v) then a else (W x v + a)%Qc) 0%Qc l = np_sum (map (W x) l)) as Hno.
  { intros l. induction l as [|y l IH]; intros Hni; [done|]. apply not_elem_of_cons in Hni as [Hxy Hni]. cbn [foldr map].
    destruct (decide (x = y)); [done|]. rewrite IH by done. done. }
  rewrite <- (take_drop_middle ns i x Hx) in Hn. apply NoDup_app in Hn as (_ & Hd & Hn). apply list.NoDup_cons in Hn as [Hnx _].
  assert (x ∉ take i ns) as Hnt by (intros Hi; apply (Hd x Hi); left).
  rewrite <- (take_drop_middle ns i x Hx) at 3. rewrite map_app, Happ, foldr_app. cbn [foldr]. rewrite decide_True by done.
  rewrite (Hno (drop (S i) ns)) by done. clear -Hnt.
  assert (forall q (l : list Z), x ∉ l -> (np_sum (map (W x) l) + q)%Qc = foldr (fun v a => if decide (x = v) then a else (W x v + a)%Qc) q l) as G.
  { intros q l. induction l as [|y l IH]; intros Hni; [unfold np_sum; cbn [map foldr]; by rewrite Qcplus_0_l|].
    apply not_elem_of_cons in Hni as [Hxy Hni]. cbn [foldr map]. rewrite decide_False by done. rewrite <- IH by done.
    unfold np_sum. cbn [foldr]. by rewrite Qcplus_assoc. }
  apply G. done.
Qed.

Lemma C89_subgraph_stat_proof : forall (directed : bool) (g : graph) (ns : list Z),
  (forall a, ~ is_edge g a a) ->
  ((forall i j u v, i <> j -> ns !! i = Some u -> ns !! j = Some v -> is_edge g u v) <->
     exists st, subgraph_stat directed g ns = Ok st) /\
  (forall e, subgraph_stat directed g ns = Err e -> e = KeyError) /\
  (forall st, subgraph_stat directed g ns = Ok st ->
     NoDup ns /\ st_size st = zlen ns /\ st_is_clique st = (directed || (zlen ns <=? 1)) /\
     (ns = [] -> st_density st = None) /\
     forall W, (forall u v w, g_wt g !! (u, v) = Some w -> W u v = w) -> ns <> [] ->
       st_density st = Some (pair_total W ns / Qc_of_Z (zlen ns))%Qc).
Proof.
  intros directed g ns Hl. unfold subgraph_stat.
  assert (forall l, (Forall (fun uv : Z * Z => is_edge g (fst uv) (snd uv)) l /\ exists ws,
      rmap (fun uv => edge_weight g (fst uv) (snd uv)) l = Ok ws /\
      forall W, (forall u v w, g_wt g !! (u, v) = Some w -> W u v = w) -> ws = map (fun uv => W (fst uv) (snd uv)) l) \/
    (~ Forall (fun uv : Z * Z => is_edge g (fst uv) (snd uv)) l /\ rmap (fun uv => edge_weight g (fst uv) (snd uv)) l = Err KeyError)) as G.
  { intros l. induction l as [|[u v] l IH]; [left; split; [constructor|exists []; done]|]. cbn [rmap fst snd]. unfold edge_weight at 1 3.
    destruct (g_wt g !! (u, v)) as [w|] eqn:Ew.
    - cbn [rbind]. destruct IH as [(HF & ws & -> & Hws)|(HF & ->)].
      + left. split; [constructor; [by exists w|done]|]. exists (w :: ws). split; [done|]. intros W HW. cbn [map fst snd].
        by rewrite (Hws W HW), (HW _ _ _ Ew).
      + right. split; [|done]. intros H. apply HF. by apply list.Forall_cons in H as [_ H].
    - right. split; [|done]. intros H. apply list.Forall_cons in H as [[w Hw] _]. cbn [fst snd] in Hw. congruence. }
  destruct (G (permutations2 ns)) as [(HF & ws & -> & Hws)|(HF & ->)]; cbn [rbind].
  - assert (forall i j u v, i <> j -> ns !! i = Some u -> ns !! j = Some v -> is_edge g u v) as He.
    { intros i j u v Hne Hi Hj. assert ((u, v) ∈ permutations2 ns) as Hin by (apply elem_of_perm2; eauto).
      exact (proj1 (list.Forall_forall _ _) HF (u, v) Hin). }
    split; [split; [eauto|done]|]. split; [done|]. intros st [= <-]. cbn [st_size st_density st_is_clique].
    assert (NoDup ns) as Hn.
    { apply NoDup_alt. intros i j x Hi Hj. destruct (decide (i = j)); [done|]. exfalso. apply (Hl x). by apply (He i j). }
    split; [done|]. split; [done|]. split.
    + unfold subgraph_edges. rewrite filter_filter_andb.
      pose proof (sub_edges_perm g ns Hn Hl) as Hp. specialize (Hp ltac:(intros u v Hin; exact (proj1 (list.Forall_forall _ _) HF (u, v) Hin))).
      destruct directed; cbn [orb].
      * rewrite filter_true. apply zlen_perm in Hp. rewrite Hp, perm2_length. by apply Z.eqb_eq.
      * apply (zlen_filter_perm (fun e => fst e <=? snd e)) in Hp. rewrite Hp. pose proof (perm2_half ns Hn) as H2.
        assert (0 <= zlen ns) by (unfold zlen; lia).
        destruct (Z.leb_spec (zlen ns) 1); [apply Z.eqb_eq|apply Z.eqb_neq]; nia.
    + split; [intros ->; done|]. intros W HW Hne. destruct (Z.eqb_spec (zlen ns) 0) as [E|_].
      { destruct ns; [done|]. unfold zlen in E. cbn [length] in E. lia. }
      rewrite (Hws W HW), perm2_total by done. done.
  - split; [|split; [by intros e [= <-]|done]]. split; [|by intros [st H]]. intros He. exfalso. apply HF.
    apply list.Forall_forall. intros [u v] Hin. apply elem_of_perm2 in Hin as (i & j & Hne & Hi & Hj). cbn [fst snd]. by apply (He i j).
Qed.


Lemma C89_sampled_cliques_proof : forall (ord : gset Z -> list Z) (g : graph) (rnd : nat -> draws) (fuel : nat) (u : Z),
  set_order ord -> NoDup (g_nodes g) -> (forall a b, is_edge g a b -> b ∈ g_nodes g) -> (forall a, ~ is_edge g a a) ->
  (forall a b, is_edge g a b -> is_edge g b a) ->
  (forall k n, (0 < n)%nat -> (d_pick (rnd k) n < n)%nat) -> u ∈ g_nodes g -> (length (g_nodes g) <= fuel)%nat ->
  exists C st, sample_clique ord g rnd fuel u = Ok C /\ subgraph_stat true g C = Ok st /\
    st_is_clique st = true /\ st_size st = zlen C /\ 1 <= zlen C.
Proof.
  intros ord g rnd fuel u Hord Hn Hin Hl Hs Hd Hu Hf.
  destruct (C26_sample_clique_proof ord g rnd fuel u Hord Hn Hin Hl Hd Hu Hf) as (C & HC & Hsrt & HuC & _ & _ & Hb).
  destruct (C89_subgraph_stat_proof true g C Hl) as ([H1 _] & _ & H3).
  destruct H1 as (st & Hst).
  { intros i j a b Hne Hi Hj. apply (Hb Hs); [by eapply elem_of_list_lookup_2..|]. intros ->.
    apply Hne. assert (NoDup C) as HN.
    { clear -Hsrt. induction Hsrt as [|x l _ IH HF]; constructor; [|done]. intros Hx. rewrite list.Forall_forall in HF. specialize (HF x Hx). lia. }
    exact (proj1 (NoDup_alt C) HN _ _ _ Hi Hj). }
  exists C, st. destruct (H3 st Hst) as (_ & E1 & E2 & _). repeat split; try done.
  destruct C; [inversion HuC|]. unfold zlen. cbn [length]. lia.
Qed.
