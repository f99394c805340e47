(** Proofs of the property theorems of Properties/P_Mlflow.v. *)
From stdpp Require Import strings.
From Verif.Model Require Import PyBase Mlflow.
From Verif.Proofs Require Import PBase.

Lemma C87_sequential_proof : forall (gen : store -> string) (name : string) (st : store),
  (forall i, st !! name = Some i -> create_experiment_if_needed gen name st = (Ok (Some i), st) /\ get_experiment_id_by_name gen name st = (Ok i, st)) /\
  (st !! name = None -> let i := gen st in let st' := <[name := i]> st in
     (i <> name -> st !! i = None -> create_experiment_if_needed gen name st = (Ok None, st') /\ get_experiment_id_by_name gen name st = (Err AttributeError, st')) /\
     (forall j, i <> name -> st !! i = Some j -> get_experiment_id_by_name gen name st = (Ok j, st')) /\
     get_experiment_id_by_name gen name st' = (Ok i, st')).
Proof.
  intros gen name st. unfold get_experiment_id_by_name, create_experiment_if_needed, mlflow_create. split.
  - intros i ->. done.
  - intros E. cbv zeta. rewrite E. split_and!.
    + intros Hn Hi. rewrite lookup_insert_ne by done. by rewrite Hi.
    + intros j Hn Hj. rewrite lookup_insert_ne by done. by rewrite Hj.
    + by rewrite lookup_insert.
Qed.


Section run.
  Context (gen : store -> string) (name : string).

  Lemma sys_invariant (I : store * list worker -> Prop) : (forall s k, I s -> I (sys_step gen name s k)) ->
    forall sched s, I s -> I (fold_left (sys_step gen name) sched s).
  Proof. intros H sched. induction sched as [|k sched IH]; intros s Hs; cbn; auto. Qed.

  Definition pre_inv (i : string) (st : store) (n : nat) (s : store * list worker) : Prop :=
    fst s = st /\ length (snd s) = n /\ Forall (fun w => w = Begin \/ w = Returned i) (snd s).

  Lemma pre_step i st n s k : st !! name = Some i -> pre_inv i st n s -> pre_inv i st n (sys_step gen name s k).
  Proof.
    intros Hi (E & L & F). unfold sys_step. destruct (snd s !! k) as [w|] eqn:Ew; [|done]. rewrite E.
    pose proof (proj1 (Forall_lookup _ _) F k w Ew) as [-> | ->]; cbn [worker_step]; rewrite ?Hi; (split_and!; [done|cbn [snd]; by rewrite insert_length|]);
      cbn [snd]; apply Forall_insert; auto.
  Qed.

  (** a worker that has taken a step has left Begin *)
  Definition steps_left (w : worker) : nat := match w with Begin => 3 | Absent => 2 | Made _ => 1 | _ => 0 end.

  Lemma step_progress st w : finished w = false -> (steps_left (snd (worker_step gen name st w)) < steps_left w)%nat.
  Proof.
    destruct w; intros H; try done; cbn [worker_step].
    - destruct (st !! name); cbn; lia.
    - unfold mlflow_create. destruct (st !! name); cbn; lia.
    - cbn. destruct (st !! i); cbn; lia.
  Qed.

  Lemma finished_left w : finished w = true <-> steps_left w = 0%nat.
  Proof. destruct w; cbn; split; (done || lia). Qed.

  Lemma sys_left s j k w : snd s !! k = Some w -> exists w', snd (sys_step gen name s j) !! k = Some w' /\
    (steps_left w' <= steps_left w - (if decide (j = k) then 1 else 0))%nat.
  Proof.
    intros Hk. unfold sys_step. destruct (snd s !! j) as [v|] eqn:Ej.
    - destruct (worker_step gen name (fst s) v) as [st' v'] eqn:Es. cbn [snd]. destruct (decide (j = k)) as [->|Hne].
      + rewrite Hk in Ej. injection Ej as ->. exists v'. split; [apply list_lookup_insert; by eapply lookup_lt_Some|].
        destruct (finished v) eqn:Ef.
        * destruct v; try done; cbn in Es; injection Es as <- <-; cbn; lia.
        * pose proof (step_progress (fst s) v Ef) as H. rewrite Es in H. cbn [snd] in H. lia.
      + exists w. rewrite list_lookup_insert_ne by done. split; [done|lia].
    - exists w. split; [done|]. destruct (decide (j = k)) as [->|Hne]; [congruence|lia].
  Qed.

  Lemma run_left sched : forall s k w, snd s !! k = Some w -> exists w', snd (fold_left (sys_step gen name) sched s) !! k = Some w' /\
    (steps_left w' <= steps_left w - length (filter (k =.) sched))%nat.
  Proof.
    induction sched as [|j sched IH]; intros s k w Hk; cbn [fold_left].
    - exists w. split; [done|]. cbn. lia.
    - destruct (sys_left s j k w Hk) as (w1 & H1 & L1). destruct (IH _ _ _ H1) as (w2 & H2 & L2). exists w2. split; [done|].
      rewrite filter_cons. destruct (decide (j = k)) as [->|Hne]; [rewrite decide_True by done|rewrite decide_False by done]; cbn [length]; lia.
  Qed.

  Definition quiet (i : string) (w : worker) : Prop := w = Begin \/ w = Absent \/ w = Returned i \/ w = Raised GenericException.
  Definition first_inv (st : store) (n : nat) (s : store * list worker) : Prop :=
    length (snd s) = n /\
    ((fst s = st /\ Forall (fun w => w = Begin \/ w = Absent) (snd s)) \/
     (fst s = <[name := gen st]> st /\ exists k w, snd s !! k = Some w /\ (w = Made (gen st) \/ w = Raised AttributeError) /\
        forall j v, j <> k -> snd s !! j = Some v -> quiet (gen st) v)).

  Lemma first_step st n s j : st !! name = None -> gen st <> name -> st !! gen st = None -> first_inv st n s -> first_inv st n (sys_step gen name s j).
  Proof.
    intros H0 Hne Hi (L & H). unfold sys_step. destruct (snd s !! j) as [v|] eqn:Ej; [|done].
    destruct H as [(E & F)|(E & k & w & Hk & Hw & Hq)].
    - rewrite E. pose proof (proj1 (Forall_lookup _ _) F j v Ej) as [-> | ->]; cbn [worker_step].
      + rewrite H0. split; [cbn [snd]; by rewrite insert_length|]. left. split; [done|]. apply Forall_insert; auto.
      + unfold mlflow_create. rewrite H0. split; [cbn [snd]; by rewrite insert_length|]. right. split; [done|]. exists j, (Made (gen st)). cbn [snd].
        split; [apply list_lookup_insert; by eapply lookup_lt_Some|]. split; [by left|]. intros j' v' Hj' Hv'. rewrite list_lookup_insert_ne in Hv' by done.
        pose proof (proj1 (Forall_lookup _ _) F j' v' Hv') as [-> | ->]; unfold quiet; auto.
    - rewrite E. destruct (decide (j = k)) as [->|Hjk].
      + rewrite Hk in Ej. injection Ej as <-. assert (Es : worker_step gen name (<[name := gen st]> st) w = (<[name := gen st]> st, Raised AttributeError)).
        { destruct Hw as [-> | ->]; cbn [worker_step]; [|done]. by rewrite lookup_insert_ne, Hi. }
        rewrite Es. split; [cbn [snd]; by rewrite insert_length|]. right. split; [done|]. exists k, (Raised AttributeError). cbn [snd].
        split; [apply list_lookup_insert; by eapply lookup_lt_Some|]. split; [by right|]. intros j' v' Hj' Hv'. rewrite list_lookup_insert_ne in Hv' by done. eauto.
      + assert (Es : exists v', worker_step gen name (<[name := gen st]> st) v = (<[name := gen st]> st, v') /\ quiet (gen st) v').
        { destruct (Hq j v Hjk Ej) as [-> | [-> | [-> | ->]]]; cbn [worker_step]; unfold mlflow_create; rewrite ?lookup_insert; eexists; (split; [reflexivity|]); unfold quiet; auto. }
        destruct Es as (v' & -> & Hv'). split; [cbn [snd]; by rewrite insert_length|]. right. split; [done|]. exists k, w. cbn [snd].
        split; [by rewrite list_lookup_insert_ne|]. split; [done|]. intros j' u Hj' Hu. destruct (decide (j' = j)) as [->|Hjj].
        * rewrite list_lookup_insert in Hu by (by eapply lookup_lt_Some). by injection Hu as <-.
        * rewrite list_lookup_insert_ne in Hu by done. eauto.
  Qed.
End run.

Lemma C87_created_before_proof : forall (gen : store -> string) (name i : string) (st : store) (n : nat) (sched : list nat),
  st !! name = Some i ->
  fst (run_workers gen name n sched st) = st /\
  forall k, (k < n)%nat -> snd (run_workers gen name n sched st) !! k = Some (if decide (k ∈ sched) then Returned i else Begin).
Proof.
  intros gen name i st n sched Hi. unfold run_workers. split.
  - apply (sys_invariant gen name (pre_inv i st n)); [intros; by apply pre_step|]. split_and!; [done|apply replicate_length|]. apply Forall_replicate. by left.
  - intros k Hk. induction sched as [|j sched IH] using rev_ind.
    + rewrite decide_False by apply not_elem_of_nil. cbn. by apply lookup_replicate_2.
    + rewrite fold_left_app. cbn [fold_left]. set (s := fold_left (sys_step gen name) sched (st, replicate n Begin)) in *.
      assert (Hs : pre_inv i st n s).
      { apply (sys_invariant gen name (pre_inv i st n)); [intros; by apply pre_step|]. split_and!; [done|apply replicate_length|]. apply Forall_replicate. by left. }
      destruct Hs as (E & L & F). unfold sys_step. destruct (decide (j = k)) as [->|Hne].
      * rewrite IH. rewrite (decide_True (P := k ∈ sched ++ [k])) by set_solver. rewrite E.
        destruct (decide (k ∈ sched)); cbn [worker_step]; rewrite ?Hi; cbn [snd]; apply list_lookup_insert; lia.
      * assert (E' : (if decide (k ∈ sched ++ [j]) then Returned i else Begin) = (if decide (k ∈ sched) then Returned i else Begin)).
        { destruct (decide (k ∈ sched)); [rewrite decide_True by set_solver|rewrite decide_False by set_solver]; done. }
        rewrite E'. destruct (snd s !! j) as [v|]; [|done]. destruct (worker_step gen name (fst s) v) as [st' v']. cbn [snd]. by rewrite list_lookup_insert_ne.
Qed.


Lemma C87_first_use_proof : forall (gen : store -> string) (name : string) (st : store) (n : nat),
  st !! name = None -> gen st <> name -> st !! gen st = None -> (1 <= n)%nat ->
  (forall sched, let '(st', ws) := run_workers gen name n sched st in
     length ws = n /\
     (forall k w, ws !! k = Some w -> (3 <= length (filter (k =.) sched))%nat -> finished w = true) /\
     (forallb finished ws = true -> st' = <[name := gen st]> st /\
        exists k, ws !! k = Some (Raised AttributeError) /\ forall j w, j <> k -> ws !! j = Some w -> w = Returned (gen st) \/ w = Raised GenericException)) /\
  ((2 <= n)%nat -> exists sched, let ws := snd (run_workers gen name n sched st) in
     ws !! 0%nat = Some (Raised AttributeError) /\ ws !! 1%nat = Some (Raised GenericException)).
Proof.
  intros gen name st n H0 Hne Hi Hn. split.
  - intros sched. assert (Hinv : first_inv gen name st n (run_workers gen name n sched st)).
    { apply (sys_invariant gen name (first_inv gen name st n)); [intros; by apply first_step|]. split; [apply replicate_length|]. left. split; [done|]. apply Forall_replicate. by left. }
    assert (Hl : forall k w, snd (run_workers gen name n sched st) !! k = Some w -> (3 <= length (filter (k =.) sched))%nat -> finished w = true).
    { intros k w Hk H3. assert (Hkn : (k < n)%nat) by (destruct Hinv as [<- _]; by eapply lookup_lt_Some).
      destruct (run_left gen name sched (st, replicate n Begin) k Begin) as (w' & Hw' & L); [by apply lookup_replicate_2|].
      unfold run_workers in Hk. rewrite Hk in Hw'. injection Hw' as <-. apply finished_left. cbn [steps_left] in L. lia. }
    destruct (run_workers gen name n sched st) as [st' ws]. cbn [snd] in Hl. destruct Hinv as [L H]. cbn [fst snd] in L, H. split_and!; [done|done|].
    intros Hf. rewrite forallb_forall in Hf. destruct H as [(_ & F)|(E & k & w & Hk & Hw & Hq)].
    + exfalso. destruct (lookup_lt_is_Some_2 ws 0%nat ltac:(lia)) as [w Hw]. pose proof (proj1 (Forall_lookup _ _) F _ _ Hw) as Hb.
      specialize (Hf w ltac:(apply elem_of_list_In; by eapply elem_of_list_lookup_2)). by destruct Hb as [-> | ->].
    + split; [done|]. exists k. assert (Hfk : finished w = true) by (apply Hf, elem_of_list_In; by eapply elem_of_list_lookup_2).
      destruct Hw as [-> | ->]; [done|]. split; [done|]. intros j v Hj Hv. assert (Hfv : finished v = true) by (apply Hf, elem_of_list_In; by eapply elem_of_list_lookup_2).
      destruct (Hq j v Hj Hv) as [-> | [-> | [-> | ->]]]; try done; auto.
  - intros Hn2. exists [0; 1; 0; 1; 0]%nat. destruct n as [|[|n]]; [lia|lia|]. unfold run_workers. cbn [replicate fold_left].
    set (l := replicate n Begin). set (st' := <[name := gen st]> st).
    assert (E1 : sys_step gen name (st, Begin :: Begin :: l) 0 = (st, Absent :: Begin :: l)).
    { unfold sys_step, worker_step. cbn [snd fst lookup list_lookup]. by rewrite H0. }
    assert (E2 : sys_step gen name (st, Absent :: Begin :: l) 1 = (st, Absent :: Absent :: l)).
    { unfold sys_step, worker_step. cbn [snd fst lookup list_lookup]. by rewrite H0. }
    assert (E3 : sys_step gen name (st, Absent :: Absent :: l) 0 = (st', Made (gen st) :: Absent :: l)).
    { unfold sys_step, worker_step, mlflow_create. cbn [snd fst lookup list_lookup]. by rewrite H0. }
    assert (E4 : sys_step gen name (st', Made (gen st) :: Absent :: l) 1 = (st', Made (gen st) :: Raised GenericException :: l)).
    { unfold sys_step, worker_step, mlflow_create. cbn [snd fst lookup list_lookup]. unfold st'. by rewrite lookup_insert. }
    assert (E5 : sys_step gen name (st', Made (gen st) :: Raised GenericException :: l) 0 = (st', Raised AttributeError :: Raised GenericException :: l)).
    { unfold sys_step, worker_step. cbn [snd fst lookup list_lookup]. unfold st'. rewrite lookup_insert_ne by done. by rewrite Hi. }
    rewrite E1, E2, E3, E4, E5. done.
Qed.
