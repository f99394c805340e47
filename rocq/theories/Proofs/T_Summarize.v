(** Proofs of the property theorems of Properties/P_Summarize.v. *)
From Coq Require Import String Reals Lra.
From stdpp Require Import strings.
From Verif.Model Require Import PyBase PyReal Scripts Tune Mlflow Summarize.
From Verif.Spec Require Import SSummarize.
Open Scope string_scope.
Open Scope list_scope.
Open Scope Z_scope.
From Verif.Proofs Require Import PBase.
Open Scope string_scope.
Open Scope list_scope.
Open Scope Z_scope.

(** ** Dictionaries and flattened rows *)
Lemma assoc_elem {A} (d : list (string * A)) k v : NoDup (map fst d) -> Scripts.assoc d k = Some v <-> (k, v) ∈ d.
Proof.
  unfold Scripts.assoc. induction d as [|[k' v'] d IH]; intros Hn; [by rewrite elem_of_nil|]. cbn [List.find fst map] in *.
  apply list.NoDup_cons in Hn as [Hk Hn]. specialize (IH Hn). rewrite elem_of_cons. destruct (String.eqb_spec k k') as [->|Hne].
  - cbn. split; [intros [= ->]; by left|]. intros [[= ->]|H]; [done|]. destruct Hk. apply elem_of_map. by exists (k', v).
  - rewrite IH. split; [by right|]. intros [[= -> ->]|H]; done.
Qed.
Lemma assoc_None {A} (d : list (string * A)) k : Scripts.assoc d k = None <-> k ∉ map fst d.
Proof.
  unfold Scripts.assoc. induction d as [|[k' v'] d IH]; cbn [List.find fst map]; [split; [set_solver|done]|].
  rewrite not_elem_of_cons. destruct (String.eqb_spec k k') as [->|Hne]; cbn; [split; [done|by intros []]|]. rewrite IH. by intuition.
Qed.

Lemma append_inj a s t : String.append a s = String.append a t -> s = t.
Proof. induction a as [|c a IH]; cbn; [done|]. intros [= H]. auto. Qed.

Lemma flat_param r n : Scripts.assoc (flatten_run r) (String.append "P/" n) = Str <$> Scripts.assoc (run_params r) n.
Proof.
  unfold Scripts.assoc, flatten_run. induction (run_metrics r) as [|[k x] ms IH]; [|exact IH]. cbn [map app]. clear.
  induction (run_params r) as [|[k v] ps IH]; [done|]. cbn [map List.find fst snd].
  destruct (String.eqb_spec n k) as [->|Hne]; [by rewrite String.eqb_refl|].
  destruct (String.eqb_spec (String.append "P/" n) (String.append "P/" k)) as [E|_]; [by apply append_inj in E|exact IH].
Qed.
Lemma flat_metric r n : Scripts.assoc (flatten_run r) (String.append "M/" n) = Num <$> Scripts.assoc (run_metrics r) n.
Proof.
  unfold Scripts.assoc, flatten_run. induction (run_metrics r) as [|[k x] ms IH].
  - cbn [map app]. induction (run_params r) as [|[k v] ps IH]; [done|exact IH].
  - cbn [map app List.find fst snd]. destruct (String.eqb_spec n k) as [->|Hne]; [by rewrite String.eqb_refl|].
    destruct (String.eqb_spec (String.append "M/" n) (String.append "M/" k)) as [E|_]; [by apply append_inj in E|exact IH].
Qed.
Lemma flat_keys r : List.filter (fun key => String.prefix "P" key) (map fst (flatten_run r)) = map (String.append "P/") (map fst (run_params r)).
Proof.
  unfold flatten_run. induction (run_metrics r) as [|[k x] ms IH]; [|exact IH]. cbn [map app].
  induction (run_params r) as [|[k v] ps IH]; [done|]. cbn [map List.filter fst snd]. cbn. f_equal. exact IH.
Qed.

Lemma group_of_spec r names g : run_ok r -> group_of (map (String.append "P/") names) (flatten_run r) = Some g <-> made_with names g r.
Proof.
  intros [_ Hp]. unfold group_of, made_with. rewrite mapM_Some. split.
  - revert g. induction names as [|n names IH]; intros g H; inversion H as [|? v ? g' H1 H2]; subst; [constructor|].
    constructor; [|by apply IH]. rewrite flat_param in H1. apply assoc_elem; [done|].
    destruct (Scripts.assoc (run_params r) n); cbn in H1; by simplify_eq.
  - induction 1 as [|n v names' g' H1 _ IH]; [constructor|]. cbn [map]. constructor; [|exact IH].
    rewrite flat_param. apply assoc_elem in H1; [|done]. by rewrite H1.
Qed.
Lemma made_with_fun names v v' r : run_ok r -> made_with names v r -> made_with names v' r -> v = v'.
Proof. intros Hr H H'. apply (group_of_spec _ _ _ Hr) in H, H'. rewrite H in H'. by simplify_eq. Qed.

Lemma column_scores names g runs : Forall run_ok runs ->
  scores names g runs (column_of (map (String.append "P/") names) (String.append "M/" METRIC_FOR_RANKING) (map flatten_run runs) g).
Proof.
  induction 1 as [|r runs Hr _ IH]; [constructor|]. unfold column_of in *. cbn [map omap list_omap]. rewrite flat_metric.
  case_bool_decide as Hg.
  - apply (group_of_spec _ _ _ Hr) in Hg. destruct (Scripts.assoc (run_metrics r) METRIC_FOR_RANKING) as [[x|]|] eqn:E; cbn.
    + apply scores_take; [done| |exact IH]. by apply assoc_elem; [apply Hr|].
    + apply scores_skip; [|exact IH]. intros _ x Hx. apply assoc_elem in Hx; [|apply Hr]. unfold METRIC_FOR_RANKING in E. by rewrite E in Hx.
    + apply scores_skip; [|exact IH]. intros _ x Hx. apply assoc_elem in Hx; [|apply Hr]. unfold METRIC_FOR_RANKING in E. by rewrite E in Hx.
  - apply scores_skip; [|exact IH]. intros H. by apply (group_of_spec _ _ _ Hr) in H.
Qed.
Lemma scores_fun names g runs xs ys : Forall run_ok runs -> scores names g runs xs -> scores names g runs ys -> xs = ys.
Proof.
  intros Hok H. revert ys. induction H as [|r x runs xs Hm Hx _ IH|r runs xs Hs _ IH]; intros ys H; [by inversion H|..];
    apply list.Forall_cons in Hok as [Hr Hok]; inversion H as [|? y ? ys' Hm' Hy Hrest|? ? ? Hs' Hrest]; subst.
  - assert (x = y) as ->; [|f_equal; by apply IH]. apply assoc_elem in Hx, Hy; [|apply Hr..]. rewrite Hx in Hy. by simplify_eq.
  - by destruct (Hs' Hm x).
  - by destruct (Hs Hm' y).
  - by apply IH.
Qed.

(** ** Mean and deviation *)
Lemma mean_average vs : is_average vs (mean_of vs).
Proof.
  unfold mean_of, is_average. destruct vs as [|x vs]; [done|]. split; [done|]. unfold rsum. field. apply not_0_INR. done.
Qed.
Lemma std_deviation vs : is_deviation vs (std_of vs).
Proof.
  pose proof (mean_average vs) as Hm. unfold std_of. destruct (mean_of vs) as [m|] eqn:E.
  - destruct (Nat.ltb_spec (length vs) 2) as [Hl|Hl]; [cbn; lia|]. split; [done|]. split; [apply sqrt_pos|]. exists m. split; [done|].
    assert (0 < INR (length vs - 1))%R as Hn by (apply lt_0_INR; lia).
    rewrite sqrt_sqrt.
    + rewrite minus_INR in * by lia. cbn [INR] in *. replace (map (λ x : R, ((x - m) ^ 2)%R) vs) with (map (λ x : R, ((x - m) * (x - m))%R) vs); [unfold rsum; field; lra|].
      apply map_ext. intros x. ring.
    + apply Rmult_le_pos; [|left; by apply Rinv_0_lt_compat]. unfold rsum. clear. induction vs as [|x vs IH]; cbn; [lra|].
      pose proof (Rle_0_sqr (x - m)) as H. unfold Rsqr in H. lra.
  - cbn in Hm. subst vs. cbn. lia.
Qed.

(** ** Groups and sorting *)
Lemma groups_fold l : forall acc, NoDup acc -> NoDup (foldl add_group acc l) /\ forall g, g ∈ foldl add_group acc l <-> g ∈ acc \/ g ∈ l.
Proof.
  induction l as [|x l IH]; intros acc Hn; cbn [foldl]; [split; [done|]; intros g; rewrite elem_of_nil; tauto|].
  unfold add_group at 2 4. case_bool_decide as Hx.
  - destruct (IH acc Hn) as [H1 H2]. split; [done|]. intros g. rewrite H2, elem_of_cons. split; [tauto|]. intros [?|[->|?]]; tauto.
  - destruct (IH (acc ++ [x])) as [H1 H2].
    + apply NoDup_app. split; [done|]. split; [|apply NoDup_singleton]. intros y Hy Hy'. apply elem_of_list_singleton in Hy' as ->. done.
    + split; [done|]. intros g. rewrite H2, elem_of_app, elem_of_list_singleton, elem_of_cons. tauto.
Qed.

Lemma omap_seq {A} (l : list A) : forall l0, omap (fun i => (l0 ++ l) !! i) (seq (length l0) (length l)) = l.
Proof.
  induction l as [|x l IH]; intros l0; [done|]. cbn [length seq omap list_omap]. rewrite list_lookup_middle by done. f_equal.
  specialize (IH (l0 ++ [x])). rewrite app_length in IH. cbn in IH. rewrite Nat.add_1_r in IH. rewrite <- app_assoc in IH. exact IH.
Qed.
Lemma omap_perm {A} (f : nat -> option A) l k : l ≡ₚ k -> omap f l ≡ₚ omap f k.
Proof.
  induction 1 as [|x l k _ IH|x y l|l k m _ IH1 _ IH2]; cbn; [done|destruct (f x); by rewrite ?IH|destruct (f x), (f y); [apply perm_swap|reflexivity..]|by etrans].
Qed.
Lemma omap_lookup {A} (f : nat -> option A) (l : list nat) : (forall i, i ∈ l -> is_Some (f i)) -> forall p : nat, omap f l !! p = l !! p ≫= f.
Proof.
  induction l as [|i l IH]; intros H p; [done|]. cbn [omap list_omap]. destruct (H i ltac:(left)) as [y Hy]. rewrite Hy.
  destruct p as [|p]; cbn; [by rewrite Hy|]. apply IH. intros j Hj. apply H. by right.
Qed.

Lemma sorted_table argsort {A} (f : A -> option R) (table : list A) : sorts_descending argsort ->
  let out := omap (fun i => table !! i) (argsort (map f table)) in
  out ≡ₚ table /\ forall p q a b, (p < q)%nat -> out !! p = Some a -> out !! q = Some b -> not_below (f a) (f b).
Proof.
  intros Hs out. destruct (Hs (map f table)) as [Hp Hd]. rewrite map_length in Hp. split.
  - unfold out. etrans; [apply omap_perm; exact Hp|]. pose proof (omap_seq table []) as H0. cbn [app length] in H0. by rewrite H0.
  - assert (forall i, i ∈ argsort (map f table) -> is_Some (table !! i)) as Hin.
    { intros i Hi. rewrite Hp in Hi. apply elem_of_seq in Hi. apply lookup_lt_is_Some. lia. }
    intros p q a b Hpq Ha Hb. unfold out in Ha, Hb. rewrite omap_lookup in Ha, Hb by done.
    destruct (argsort (map f table) !! p) as [i|] eqn:Ei; [|done]. destruct (argsort (map f table) !! q) as [j|] eqn:Ej; [|done].
    cbn in Ha, Hb. eapply (Hd p q i j); [done..| |]; change (map f table) with (f <$> table); rewrite list_lookup_fmap; [by rewrite Ha|by rewrite Hb].
Qed.

(** ** The table *)
Lemma summarize_ok argsort r0 rest : Forall run_ok (r0 :: rest) -> run_params r0 <> [] ->
  (exists r x, r ∈ r0 :: rest /\ ("micro_f1", x) ∈ run_metrics r) ->
  exists table, summarize argsort (r0 :: rest) = Ok (map (String.append "P/") (map fst (run_params r0)) ++ ["micro_f1/mean"; "micro_f1/std"],
      omap (fun i => table !! i) (argsort (map (fun t => fst (snd t)) table))) /\
    NoDup (map fst table) /\
    (forall g, g ∈ map fst table <-> exists r, r ∈ r0 :: rest /\ made_with (map fst (run_params r0)) g r) /\
    (forall g m s, (g, (m, s)) ∈ table -> exists xs, scores (map fst (run_params r0)) g (r0 :: rest) xs /\ is_average xs m /\ is_deviation xs s).
Proof.
  intros Hok Hne (r & x & Hr & Hx). set (names := map fst (run_params r0)). unfold summarize. cbn [map].
  rewrite flat_keys. fold names. set (keys := map (String.append "P/") names).
  assert (exists k ks, keys = k :: ks) as (k0 & ks0 & Ek).
  { unfold keys, names. destruct (run_params r0); [done|]. cbn. by eexists _, _. }
  rewrite Ek. rewrite <- Ek. rewrite bool_decide_eq_true_2.
  2:{ change (flatten_run r0 :: map flatten_run rest) with (map flatten_run (r0 :: rest)). change (map fst (flatten_run r0) :: map (map fst) (map flatten_run rest)) with (map (map fst) (map flatten_run (r0 :: rest))).
      apply elem_of_list_In, in_concat. exists (map fst (flatten_run r)). split.
      - apply in_map, in_map. by apply elem_of_list_In.
      - apply elem_of_list_In. unfold flatten_run. rewrite map_app. apply elem_of_app. left. apply elem_of_map. exists (String.append "M/" "micro_f1", Num x).
        split; [done|]. apply elem_of_map. by exists ("micro_f1", x). }
  eexists. split; [reflexivity|].
  change (flatten_run r0 :: map flatten_run rest) with (map flatten_run (r0 :: rest)).
  destruct (groups_fold (omap (group_of keys) (map flatten_run (r0 :: rest))) [] ltac:(constructor)) as [Hn Hg].
  set (groups := foldl add_group _ _) in *. rewrite map_map. cbn [fst].
  split; [by rewrite map_id|]. split.
  - intros g. rewrite map_id, Hg, elem_of_nil, elem_of_list_omap. split.
    + intros [[]|(row & Hrow & Eg)]. apply elem_of_map in Hrow as (r' & -> & Hr'). exists r'. split; [done|].
      apply group_of_spec; [|done]. rewrite list.Forall_forall in Hok. by apply Hok.
    + intros (r' & Hr' & Hm). right. exists (flatten_run r'). split; [apply elem_of_map; by exists r'|].
      apply group_of_spec; [|done]. rewrite list.Forall_forall in Hok. by apply Hok.
  - intros g m s H. apply elem_of_map in H as (g' & [= -> -> ->] & _). eexists. split; [by apply column_scores|].
    split; [apply mean_average|apply std_deviation].
Qed.
Lemma summarize_errors argsort runs :
  (runs = [] -> summarize argsort runs = Err IndexError) /\
  (forall r0 rest, runs = r0 :: rest -> run_params r0 = [] -> summarize argsort runs = Err ValueError) /\
  (forall r0 rest, runs = r0 :: rest -> run_params r0 <> [] -> (forall r x, r ∈ runs -> ("micro_f1", x) ∉ run_metrics r) ->
     summarize argsort runs = Err KeyError).
Proof.
  split; [by intros ->|]. split.
  - intros r0 rest -> E. unfold summarize. cbn [map]. rewrite flat_keys, E. done.
  - intros r0 rest -> Hne Hno. unfold summarize. cbn [map]. rewrite flat_keys.
    assert (exists k ks, map (String.append "P/") (map fst (run_params r0)) = k :: ks) as (k0 & ks0 & ->).
    { destruct (run_params r0); [done|]. cbn. by eexists _, _. }
    rewrite bool_decide_eq_false_2; [done|]. change (map fst (flatten_run r0) :: map (map fst) (map flatten_run rest)) with (map (map fst) (map flatten_run (r0 :: rest))).
    intros Hin. apply elem_of_list_In, in_concat in Hin as (l & Hl & Hin). apply in_map_iff in Hl as (row & <- & Hrow).
    apply in_map_iff in Hrow as (r & <- & Hr). apply elem_of_list_In in Hr, Hin. apply elem_of_map in Hin as ([k c] & E & Hc). cbn in E. subst k.
    unfold flatten_run in Hc. apply elem_of_app in Hc as [Hc|Hc]; apply elem_of_map in Hc as ([k x] & E & Hc); cbn in E; [|by injection E].
    injection E as E _. subst k. by destruct (Hno r x Hr).
Qed.

Lemma C93_rows_proof : forall argsort runs cols table, sorts_descending argsort -> Forall run_ok runs ->
  summarize argsort runs = Ok (cols, table) ->
  exists r0 rest, let names := map fst (run_params r0) in
    runs = r0 :: rest /\ cols = map (String.append "P/") names ++ ["micro_f1/mean"; "micro_f1/std"] /\
    NoDup (map fst table) /\
    (forall values, values ∈ map fst table <-> exists r, r ∈ runs /\ made_with names values r) /\
    (forall values m s, (values, (m, s)) ∈ table -> exists xs, scores names values runs xs /\ is_average xs m /\ is_deviation xs s) /\
    (forall r values, r ∈ runs -> made_with names values r -> forall row, row ∈ table -> made_with names (fst row) r -> fst row = values).
Proof.
  intros argsort runs cols table Hs Hok E. destruct (summarize_errors argsort runs) as (H1 & H2 & H3).
  destruct runs as [|r0 rest]; [by rewrite H1 in E|]. destruct (run_params r0) as [|p ps] eqn:Ep; [by rewrite (H2 r0 rest) in E|].
  destruct (decide (Exists (fun r => "micro_f1" ∈ map fst (run_metrics r)) (r0 :: rest))) as [Hex|Hno].
  2:{ rewrite (H3 r0 rest) in E; [done|done|by rewrite Ep|]. intros r x Hr Hx. apply Hno. apply list.Exists_exists. exists r. split; [done|]. apply elem_of_map. by exists ("micro_f1", x). }
  apply list.Exists_exists in Hex as (r & Hr & Hx). apply elem_of_map in Hx as ([k x] & Ek & Hx). cbn in Ek. subst k.
  destruct (summarize_ok argsort r0 rest Hok ltac:(by rewrite Ep) ltac:(by exists r, x)) as (t & Et & Hn & Hg & Hxs).
  rewrite Et in E. injection E as <- <-. destruct (sorted_table argsort (fun t => fst (snd t)) t Hs) as [Hperm _].
  exists r0, rest. cbn zeta. split; [done|]. split; [done|].
  assert (Hm : map fst (omap (λ i, t !! i) (argsort (map (λ t0, t0.2.1) t))) ≡ₚ map fst t) by (by apply Permutation_map).
  split; [by rewrite Hm|]. split; [intros values; by rewrite Hm|].
  split; [intros values m s H; rewrite Hperm in H; by apply Hxs|].
  intros r' values Hr' Hv row _ Hrow. rewrite list.Forall_forall in Hok. eapply made_with_fun; [by apply Hok|done|done].
Qed.

Lemma C93_ranked_proof : forall argsort runs cols table, sorts_descending argsort -> Forall run_ok runs ->
  summarize argsort runs = Ok (cols, table) ->
  (forall p q v v' m m' s s', (p < q)%nat -> table !! p = Some (v, (m, s)) -> table !! q = Some (v', (m', s')) -> not_below m m') /\
  exists r0 rest values m s more, runs = r0 :: rest /\ table = (values, (m, s)) :: more /\
    forall values' xs, scores (map fst (run_params r0)) values' runs xs -> xs <> [] ->
      exists m0, m = Some m0 /\ (foldr Rplus 0 xs <= m0 * INR (length xs))%R.
Proof.
  intros argsort runs cols table Hs Hok E. destruct (summarize_errors argsort runs) as (H1 & H2 & H3).
  destruct runs as [|r0 rest]; [by rewrite H1 in E|]. destruct (run_params r0) as [|p ps] eqn:Ep; [by rewrite (H2 r0 rest) in E|].
  destruct (decide (Exists (fun r => "micro_f1" ∈ map fst (run_metrics r)) (r0 :: rest))) as [Hex|Hno].
  2:{ rewrite (H3 r0 rest) in E; [done|done|by rewrite Ep|]. intros r x Hr Hx. apply Hno. apply list.Exists_exists. exists r. split; [done|]. apply elem_of_map. by exists ("micro_f1", x). }
  apply list.Exists_exists in Hex as (r & Hr & Hx). apply elem_of_map in Hx as ([k x] & Ek & Hx). cbn in Ek. subst k.
  destruct (summarize_ok argsort r0 rest Hok ltac:(by rewrite Ep) ltac:(by exists r, x)) as (t & Et & Hn & Hg & Hxs).
  rewrite Et in E. injection E as <- Etab. destruct (sorted_table argsort (fun t => fst (snd t)) t Hs) as [Hperm Hsorted].
  rewrite Etab in Hperm, Hsorted.
  assert (Hsort : forall p q v v' m m' s s', (p < q)%nat -> table !! p = Some (v, (m, s)) -> table !! q = Some (v', (m', s')) -> not_below m m')
    by (intros p' q v v' m m' s s' Hpq Hp Hq; exact (Hsorted p' q _ _ Hpq Hp Hq)).
  split; [exact Hsort|].
  assert (exists row more, table = row :: more) as ([values [m s]] & more & ->).
  { assert (exists g, made_with (map fst (run_params r0)) g r0) as [g Hg0].
    { exists (map snd (run_params r0)). unfold made_with. apply Forall2_fmap_l, Forall2_fmap_r. apply Forall_Forall2_diag. apply list.Forall_forall. by intros []. }
    assert (g ∈ map fst t) as Hin by (apply Hg; exists r0; split; [left|done]). apply elem_of_map in Hin as (row & _ & Hrow). rewrite <- Hperm in Hrow.
    destruct table; [by apply elem_of_nil in Hrow|]. by eexists _, _. }
  exists r0, rest, values, m, s, more. split; [done|]. split; [done|]. intros values' xs Hsc Hne.
  assert (exists r', r' ∈ r0 :: rest /\ made_with (map fst (run_params r0)) values' r') as Hmade.
  { clear -Hsc Hne. induction Hsc as [|r x runs xs Hm Hx _ IH|r runs xs Hsk _ IH]; [done|exists r; split; [left|done]|].
    destruct (IH Hne) as (r' & Hr' & H). exists r'. split; [by right|done]. }
  apply Hg in Hmade. apply elem_of_map in Hmade as ([v' [m' s']] & -> & Hrow). cbn [fst] in *.
  destruct (Hxs _ _ _ Hrow) as (ys & Hys & Havg & _). assert (ys = xs) as -> by (by eapply scores_fun).
  destruct m' as [m'|]; [|done]. destruct Havg as [_ Havg].
  rewrite <- Hperm in Hrow. apply elem_of_list_lookup in Hrow as [[|q] Hq].
  - injection Hq as <- -> <-. exists m'. split; [done|]. lra.
  - pose proof (Hsort 0%nat (S q) _ _ _ _ _ _ ltac:(lia) eq_refl Hq) as Hb. destruct m as [m|]; [|done]. cbn in Hb. exists m. split; [done|].
    rewrite <- Havg. apply Rmult_le_compat_r; [apply pos_INR|done].
Qed.

Lemma C93_errors_proof : forall argsort gen server dataset st,
  (forall i, st !! "tune_greedy_v3" = Some i -> exists runs,
     (forall r, r ∈ runs <-> r ∈ server /\ run_experiment r = i /\ run_dataset r = Some dataset /\ run_active r = true) /\
     (NoDup server -> NoDup runs) /\
     snd (summarize_main gen argsort server dataset st) = st /\
     match runs with
     | [] => fst (summarize_main gen argsort server dataset st) = Err IndexError
     | r0 :: _ => summarize_main gen argsort server dataset st = (summarize argsort runs, st) /\
        (run_params r0 = [] -> summarize argsort runs = Err ValueError) /\
        (run_params r0 <> [] -> (forall r x, r ∈ runs -> ("micro_f1", x) ∉ run_metrics r) -> summarize argsort runs = Err KeyError) /\
        (run_params r0 <> [] -> Forall run_ok runs -> (exists r x, r ∈ runs /\ ("micro_f1", x) ∈ run_metrics r) -> exists out, summarize argsort runs = Ok out)
     end) /\
  (st !! "tune_greedy_v3" = None -> st !! gen st = None -> gen st <> "tune_greedy_v3" ->
     summarize_main gen argsort server dataset st = (Err AttributeError, <["tune_greedy_v3" := gen st]> st)).
Proof.
  intros argsort gen server dataset st. split.
  - intros i Hi. exists (search_runs server i dataset).
    assert (Emain : summarize_main gen argsort server dataset st = (summarize argsort (search_runs server i dataset), st)).
    { unfold summarize_main, get_experiment_id_by_name, create_experiment_if_needed, EXPERIMENT_NAME. by rewrite Hi. }
    rewrite Emain. split_and!; [|intros H; unfold search_runs; apply NoDup_ListNoDup, List.NoDup_filter; by apply NoDup_ListNoDup|done|].
    + intros r. unfold search_runs. rewrite elem_of_list_In, filter_In, !andb_true_iff, bool_decide_eq_true, String.eqb_eq, elem_of_list_In. tauto.
    + destruct (summarize_errors argsort (search_runs server i dataset)) as (H1 & H2 & H3).
      destruct (search_runs server i dataset) as [|r0 rest]; [by apply H1|]. split; [done|]. split; [by apply (H2 r0 rest)|].
      split; [intros Hne Hno; by apply (H3 r0 rest)|]. intros Hne Hok Hex. destruct (summarize_ok argsort r0 rest Hok Hne Hex) as (t & Et & _). by eexists.
  - intros Hn Hg Hne. unfold summarize_main, get_experiment_id_by_name, create_experiment_if_needed, mlflow_create, EXPERIMENT_NAME. rewrite !Hn.
    rewrite lookup_insert_ne by done. by rewrite Hg.
Qed.
