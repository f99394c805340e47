(** Lemmas on the clique enumeration. *)
From Verif.Model Require Import PyBase Sparse Utils Graph Cliques.
From Verif.Spec Require Import SGraph.
From Verif.Proofs Require Import PBase PTrie PAssign.
Open Scope Z_scope.

Lemma elem_of_neighbors g u v : v ∈ neighbors g u <-> is_edge g u v.
Proof.
  unfold neighbors, is_edge. rewrite fin_sets.elem_of_map. setoid_rewrite elem_of_filter. setoid_rewrite elem_of_dom. split.
  - intros ([u' v'] & -> & Hu & He). simpl in *. by subst.
  - intros He. exists (u, v). done.
Qed.

Lemma for_append_spec {A B K} (f : A -> result (list B)) (key : B -> K) (P : A -> B -> Prop) us :
  NoDup us ->
  (forall u, u ∈ us -> exists l, f u = Ok l /\ NoDup (map key l) /\ forall x, x ∈ l <-> P u x) ->
  (forall u u' x x', u ∈ us -> u' ∈ us -> P u x -> P u' x' -> key x = key x' -> u = u') ->
  exists l, for_append f us = Ok l /\ NoDup (map key l) /\ forall x, x ∈ l <-> exists u, u ∈ us /\ P u x.
Proof.
  induction us as [|u us IH]; intros Hnd Hf Hkey.
  - exists []. split; [done|]. split; [constructor|]. intros x. split; [intros H; inversion H|].
    intros (u & H & _). inversion H.
  - inversion Hnd as [|? ? Hu Hnd']; subst. simpl.
    destruct (Hf u) as (l & -> & Hndl & Hl); [left|].
    destruct IH as (l' & -> & Hndl' & Hl'); [done|intros; apply Hf; by right|intros u1 u2 ? ? ? ?; apply Hkey; by right|].
    simpl. exists (l ++ l'). split; [done|]. split.
    + rewrite map_app. apply NoDup_app. split; [done|]. split; [|done].
      intros k Hk Hk'. apply elem_of_map in Hk as (x & -> & Hx). apply elem_of_map in Hk' as (x' & Ek & Hx').
      apply Hl in Hx. apply Hl' in Hx' as (u' & Hu' & Hx').
      assert (u = u') as -> by (apply (Hkey u u' x x'); try done; [left|by right]). done.
    + intros x. rewrite elem_of_app, Hl, Hl'. split.
      * intros [?|(u' & ? & ?)]; [exists u; split; [left|done]|exists u'; split; [by right|done]].
      * intros (u' & Hin & Hp). apply elem_of_cons in Hin as [->|?]; [auto|]. right. eauto.
Qed.

Section dfs.
  Variable ord : gset Z -> list Z.
  Variable nodes : list Z.
  Variable nbr : Z -> gset Z.
  Variable w : Z -> Z -> result Qc.
  Variable W : Z -> Z -> Qc.
  Variable alpha : Qc.
  Hypothesis Hord : set_order ord.
  Hypothesis Hnodes : NoDup nodes.
  Hypothesis Hsym : forall u v, v ∈ nbr u -> u ∈ nbr v.
  Hypothesis Hin : forall u v, v ∈ nbr u -> v ∈ nodes.
  Hypothesis Hw : forall u v, v ∈ nbr u -> w u v = Ok (W u v).
  Hypothesis HWsym : forall u v, v ∈ nbr u -> W u v = W v u.
  Hypothesis HW01 : forall u v, v ∈ nbr u -> (0 <= W u v <= 1)%Qc.

  Definition pw (l : list (Z * Z)) : Qc := qprod (map (fun uv => W (fst uv) (snd uv)) l).
  Definition pprod (S : list Z) : Qc := pw (all_pairs S).

  Definition valid (S : list Z) : Prop :=
    StronglySorted Z.lt S /\ (forall u, u ∈ S -> u ∈ nodes) /\
    (forall u v, u ∈ S -> v ∈ S -> u < v -> v ∈ nbr u).

  Lemma qprod_app l l' : qprod (l ++ l') = (qprod l * qprod l')%Qc.
  Proof. induction l as [|x l IH]; simpl; [ring|]. rewrite IH. ring. Qed.

  Lemma qprod_01 l : Forall (fun x => 0 <= x <= 1)%Qc l -> (0 <= qprod l <= 1)%Qc.
  Proof.
    induction 1 as [|x l [Hx0 Hx1] Hl [IH0 IH1]]; simpl; [split; discriminate|]. split.
    - replace 0%Qc with (0 * qprod l)%Qc by ring. by apply Qcmult_le_compat_r.
    - apply Qcle_trans with (1 * qprod l)%Qc; [by apply Qcmult_le_compat_r|]. by rewrite Qcmult_1_l.
  Qed.

  Definition row (u : Z) (S : list Z) : Qc := qprod (map (W u) S).

  Lemma row_01 u S : (forall v, v ∈ S -> v ∈ nbr u) -> (0 <= row u S <= 1)%Qc.
  Proof.
    intros H. apply qprod_01. apply list.Forall_forall. intros x Hx. apply elem_of_map in Hx as (v & -> & Hv). auto.
  Qed.

  Lemma pprod_snoc S u : (forall v, v ∈ S -> u ∈ nbr v) -> pprod (S ++ [u]) = (pprod S * row u S)%Qc.
  Proof.
    unfold pprod, pw, row. induction S as [|x S IH]; intros H; simpl; [ring|].
    rewrite !map_app, !qprod_app, IH by (intros; apply H; by right). rewrite !map_map. simpl.
    rewrite (HWsym x u) by (apply H; left). ring.
  Qed.

  Lemma extend_proba_ok S u p : (forall v, v ∈ S -> v ∈ nbr u) -> (0 <= p)%Qc ->
    exists r, extend_proba (w u) alpha p S = Ok r /\
      (S <> [] -> r = if decide (alpha <= p * row u S)%Qc then Some (p * row u S)%Qc else None) /\
      (S = [] -> r = Some p).
  Proof.
    revert p. induction S as [|v S IH]; intros p H Hp; simpl; [exists (Some p); done|].
    rewrite Hw by (apply H; left). cbn [rbind].
    assert (H' : forall x, x ∈ S -> x ∈ nbr u) by (intros; apply H; by right).
    assert (Hv := HW01 u v (H v ltac:(left))).
    assert (Hpv : (0 <= p * W u v)%Qc).
    { replace 0%Qc with (0 * W u v)%Qc by ring. apply Qcmult_le_compat_r; tauto. }
    assert (Erow : (p * row u (v :: S) = p * W u v * row u S)%Qc) by (unfold row; simpl; ring).
    case_bool_decide as Hlt.
    - exists None. split; [done|]. split; [|done]. intros _. rewrite decide_False; [done|].
      intros Hle. apply (Qclt_not_le _ _ Hlt). apply Qcle_trans with (p * row u (v :: S))%Qc; [done|].
      rewrite Erow. replace (p * W u v)%Qc with (1 * (p * W u v))%Qc at 2 by ring.
      rewrite Qcmult_comm. apply Qcmult_le_compat_r; [|done]. by apply row_01.
    - destruct (IH (p * W u v)%Qc H' Hpv) as (r & -> & Hr1 & Hr2). exists r. split; [done|]. split; [|done].
      intros _. rewrite Erow. destruct (decide (S = [])) as [->|HS]; [|by apply Hr1].
      rewrite (Hr2 eq_refl). unfold row. simpl. rewrite Qcmult_1_r.
      rewrite decide_True; [done|]. by apply Qcnot_lt_le.
  Qed.

  Lemma sorted_snoc S u : S <> [] -> StronglySorted Z.lt S ->
    (StronglySorted Z.lt (S ++ [u]) <-> List.last S 0 < u).
  Proof.
    intros HS Hs. split.
    - intros H. destruct S as [|z S _] using rev_ind; [done|]. rewrite last_last.
      apply (sorted_lookup_lt _ (length S) (Datatypes.S (length S)) _ _ H); [| |lia].
      + rewrite lookup_app_l by (rewrite app_length; simpl; lia). rewrite lookup_app_r by lia. by rewrite Nat.sub_diag.
      + rewrite lookup_app_r by (rewrite app_length; simpl; lia). rewrite app_length. simpl.
        replace (Datatypes.S (length S) - (length S + 1))%nat with 0%nat by lia. done.
    - intros Hlt. apply StronglySorted_app_intro; [done|repeat constructor|].
      intros a b Ha Hb. apply elem_of_list_singleton in Hb as ->.
      destruct S as [|z S _] using rev_ind; [done|]. rewrite last_last in Hlt.
      apply elem_of_app in Ha as [Ha|Ha]; [|apply elem_of_list_singleton in Ha; lia].
      apply StronglySorted_app_inv in Hs as (_ & _ & Hs). specialize (Hs a z Ha).
      rewrite elem_of_list_singleton in Hs. specialize (Hs eq_refl). lia.
  Qed.

  Lemma valid_prefix S T : valid (S ++ T) -> valid S.
  Proof.
    intros (H1 & H2 & H3). split; [|split].
    - by apply StronglySorted_app_inv in H1 as (? & _).
    - intros u Hu. apply H2. apply elem_of_app. auto.
    - intros u v Hu Hv. apply H3; apply elem_of_app; auto.
  Qed.

  Lemma valid_last_bound S a : valid S -> a ∈ S -> a <= List.last S 0.
  Proof.
    intros (Hs & _) Ha. destruct S as [|z S _] using rev_ind; [inversion Ha|]. rewrite last_last.
    apply elem_of_app in Ha as [Ha|Ha]; [|apply elem_of_list_singleton in Ha; lia].
    apply StronglySorted_app_inv in Hs as (_ & _ & Hs). specialize (Hs a z Ha).
    rewrite elem_of_list_singleton in Hs. specialize (Hs eq_refl). lia.
  Qed.

  Lemma valid_snoc S u : S <> [] -> valid S ->
    (valid (S ++ [u]) <-> List.last S 0 < u /\ forall v, v ∈ S -> u ∈ nbr v).
  Proof.
    intros HS Hv. pose proof Hv as (H1 & H2 & H3). unfold valid. rewrite sorted_snoc by done. split.
    - intros (Ha & Hb & Hc). split; [done|]. intros v Hv'. apply Hc.
      + apply elem_of_app; auto.
      + apply elem_of_app; right. by apply elem_of_list_singleton.
      + pose proof (valid_last_bound S v Hv Hv'). lia.
    - intros [Hlt Hn]. split; [done|]. split.
      + intros x Hx. apply elem_of_app in Hx as [?|Hx]; [auto|]. apply elem_of_list_singleton in Hx as ->.
        destruct S as [|z S]; [done|]. apply (Hin z). apply Hn. left.
      + intros x y Hx Hy Hxy. apply elem_of_app in Hx as [Hx|Hx]; apply elem_of_app in Hy as [Hy|Hy].
        * auto.
        * apply elem_of_list_singleton in Hy as ->. auto.
        * apply elem_of_list_singleton in Hx as ->. pose proof (valid_last_bound S y Hv Hy). lia.
        * apply elem_of_list_singleton in Hx as ->. apply elem_of_list_singleton in Hy as ->. lia.
  Qed.

  Lemma pprod_01 S : valid S -> (0 <= pprod S <= 1)%Qc.
  Proof.
    intros (Hs & _ & Hn). apply qprod_01. apply list.Forall_forall. intros x Hx.
    apply elem_of_map in Hx as ([u v] & -> & Huv). simpl.
    enough (v ∈ nbr u) by auto.
    clear -Hs Hn Huv. induction S as [|y S IH]; simpl in Huv; [inversion Huv|].
    apply sorted_cons_inv in Hs as [Hs Hy]. apply elem_of_app in Huv as [Huv|Huv].
    - apply elem_of_map in Huv as (v' & E & Hv'). simplify_eq. apply Hn; [left|by right|auto].
    - apply IH; [done| |done]. intros a b Ha Hb. apply Hn; by right.
  Qed.

  Lemma pprod_prefix S T : valid (S ++ T) -> (pprod (S ++ T) <= pprod S)%Qc.
  Proof.
    induction T as [|u T IH] using rev_ind; intros Hv; [rewrite app_nil_r; apply Qcle_refl|].
    rewrite (assoc_L app) in *. pose proof (valid_prefix _ _ Hv) as Hv'.
    apply Qcle_trans with (pprod (S ++ T)); [|by apply IH].
    destruct (decide (S ++ T = [])) as [E|E].
    - rewrite E. simpl. apply Qcle_refl.
    - apply (valid_snoc _ u E Hv') in Hv as [_ Hn]. rewrite pprod_snoc by done.
      replace (pprod (S ++ T)) with (1 * pprod (S ++ T))%Qc at 2 by ring. rewrite Qcmult_comm.
      apply Qcmult_le_compat_r; [apply row_01; auto|apply pprod_01; done].
  Qed.

  Lemma dfs_from_spec fuel : forall S p shared,
    (length nodes < fuel + length S)%nat -> S <> [] -> valid S -> p = pprod S ->
    (forall u, u ∈ shared <-> forall v, v ∈ S -> u ∈ nbr v) ->
    exists l, dfs_from ord nbr w alpha fuel S p shared = Ok l /\ NoDup (map fst l) /\
      forall x, x ∈ l <-> exists T, fst x = S ++ T /\ valid (S ++ T) /\ snd x = pprod (S ++ T) /\
                            (T = [] \/ (alpha <= pprod (S ++ T))%Qc).
  Proof.
    induction fuel as [|f IH]; intros S p shared Hfuel HS Hv Hp Hsh.
    - exfalso. destruct Hv as (Hs & Hn & _). apply sorted_NoDup in Hs.
      assert (length S <= length nodes)%nat; [|lia].
      apply NoDup_incl_length; [by apply NoDup_ListNoDup|]. intros x Hx. apply elem_of_list_In. apply Hn.
      by apply elem_of_list_In.
    - simpl.
      set (P := fun (u : Z) (x : list Z * Qc) => exists T, fst x = S ++ u :: T /\ valid (S ++ u :: T) /\
        snd x = pprod (S ++ u :: T) /\ (alpha <= pprod (S ++ u :: T))%Qc).
      match goal with |- context [for_append ?F _] => set (Fn := F) end.
      destruct (for_append_spec Fn fst P (ord shared)) as (l & -> & Hnd & Hl).
      + by apply set_order_NoDup.
      + intros u Hu. apply set_order_elem in Hu; [|done]. assert (Hn := proj1 (Hsh u) Hu). unfold Fn.
        destruct (Z.ltb_spec (List.last S 0) u) as [Hlt|Hge].
        * assert (Hv' : valid (S ++ [u])) by (by apply valid_snoc).
          destruct (extend_proba_ok S u p) as (r & -> & Hr & _).
          { intros v Hv0. apply Hsym. auto. }
          { subst p. by apply pprod_01. }
          cbn [rbind]. rewrite (Hr HS). rewrite Hp, <- pprod_snoc by done.
          destruct (decide (alpha <= pprod (S ++ [u]))%Qc) as [Ha|Ha].
          -- destruct (IH (S ++ [u]) (pprod (S ++ [u])) (shared ∩ nbr u)) as (l & -> & Hndl & Hl); try done.
             ++ rewrite app_length. simpl. lia.
             ++ by destruct S.
             ++ intros y. rewrite elem_of_intersection, Hsh. split.
                ** intros [H1 H2] v Hv0. apply elem_of_app in Hv0 as [?|Hv0]; [auto|]. by apply elem_of_list_singleton in Hv0 as ->.
                ** intros H. split; [intros; apply H; apply elem_of_app; auto|]. apply H. apply elem_of_app. right.
                   by apply elem_of_list_singleton.
             ++ exists l. split; [done|]. split; [done|]. intros x. rewrite Hl. unfold P. split.
                ** intros (T & E1 & E2 & E3 & E4). rewrite <- (assoc_L app) in *. simpl in *. exists T. split_and!; try done.
                   destruct E4 as [->|?]; done.
                ** intros (T & E1 & E2 & E3 & E4). exists T. rewrite <- (assoc_L app). simpl. split_and!; auto.
          -- exists []. split; [done|]. split; [constructor|]. intros x. split; [intros H; inversion H|].
             intros (T & _ & Hvt & _ & Hat). exfalso. apply Ha. apply Qcle_trans with (pprod (S ++ u :: T)); [done|].
             replace (S ++ u :: T) with ((S ++ [u]) ++ T) in * by (by rewrite <- (assoc_L app)).
             by apply pprod_prefix.
        * exists []. split; [done|]. split; [constructor|]. intros x. split; [intros H; inversion H|].
          intros (T & _ & Hvt & _). exfalso.
          replace (S ++ u :: T) with ((S ++ [u]) ++ T) in Hvt by (by rewrite <- (assoc_L app)).
          apply valid_prefix in Hvt. apply valid_snoc in Hvt as [? _]; [lia|done|done].
      + intros u u' x x' _ _ (T & E & _) (T' & E' & _) Ek. rewrite E, E' in Ek. apply app_inv_head in Ek. congruence.
      + cbn [rbind]. eexists. split; [reflexivity|]. simpl. split.
        * constructor; [|done]. intros H. apply elem_of_map in H as (x & Ex & Hx). apply Hl in Hx as (u & _ & T & E & _).
          rewrite E in Ex. apply (f_equal length) in Ex. rewrite app_length in Ex. simpl in Ex. lia.
        * intros x. rewrite elem_of_cons, Hl. split.
          -- intros [->|(u & Hu & T & E1 & E2 & E3 & E4)].
             ++ exists []. simpl. rewrite app_nil_r. auto.
             ++ exists (u :: T). auto.
          -- intros (T & E1 & E2 & E3 & E4). destruct T as [|u T].
             ++ left. rewrite app_nil_r in *. destruct x; simpl in *. by subst.
             ++ right. exists u. destruct E4 as [?|E4]; [done|]. split; [|exists T; done].
                apply set_order_elem; [done|]. apply Hsh.
                replace (S ++ u :: T) with ((S ++ [u]) ++ T) in E2 by (by rewrite <- (assoc_L app)).
                apply valid_prefix in E2. by apply valid_snoc in E2 as [_ ?].
  Qed.

  Lemma enum_spec n : (length nodes <= n)%nat ->
    exists l, for_append (fun u => dfs_from ord nbr w alpha n [u] 1%Qc (nbr u)) nodes = Ok l /\
      NoDup (map fst l) /\
      forall x, x ∈ l <-> fst x <> [] /\ valid (fst x) /\ snd x = pprod (fst x) /\
                      (length (fst x) = 1%nat \/ (alpha <= pprod (fst x))%Qc).
  Proof.
    intros Hn.
    set (P := fun (u : Z) (x : list Z * Qc) => exists T, fst x = [u] ++ T /\ valid ([u] ++ T) /\ snd x = pprod ([u] ++ T) /\
                            (T = [] \/ (alpha <= pprod ([u] ++ T))%Qc)).
    destruct (for_append_spec (fun u => dfs_from ord nbr w alpha n [u] 1%Qc (nbr u)) fst P nodes) as (l & E & Hnd & Hl).
    - done.
    - intros u Hu. apply dfs_from_spec; try done.
      + simpl. lia.
      + split; [repeat constructor|]. split; intros x Hx.
        * by apply elem_of_list_singleton in Hx as ->.
        * intros Hx1 Hx2 ?. apply elem_of_list_singleton in Hx2 as ->. apply elem_of_list_singleton in Hx1 as ->. lia.
      + intros y. split; [|intros H; apply H; by left]. intros Hy v Hv. by apply elem_of_list_singleton in Hv as ->.
    - intros u u' x x' _ _ (T & E & _) (T' & E' & _) Ek. rewrite E, E' in Ek. simpl in Ek. congruence.
    - exists l. split; [done|]. split; [done|]. intros x. rewrite Hl. unfold P. split.
      + intros (u & Hu & T & E1 & E2 & E3 & E4). rewrite E1. split_and!; try done.
        destruct E4 as [->|?]; [by left|by right].
      + intros (H1 & H2 & H3 & H4). destruct (fst x) as [|u T] eqn:Ex; [done|]. exists u. split.
        * apply H2. left.
        * exists T. split_and!; try done. destruct H4 as [H4|?]; [|auto]. left. by destruct T.
  Qed.
End dfs.
