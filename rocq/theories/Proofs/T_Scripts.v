(** Proofs of the property theorems of Properties/P_Scripts.v. *)
From Coq Require Import String Reals Qreals QArith Qcanon Lra.
From stdpp Require Import strings.
From Verif.Model Require Import PyBase Sparse Rand Rule GreedyBase PyState Greedy Evaluation Data Exp Scripts.
From Verif.Spec Require Import SExp SScripts.
Open Scope string_scope.
Open Scope list_scope.
Open Scope Z_scope.
From Verif.Proofs Require Import PBase T_Exp.

Section Bind.
  Context {A : Type}.
  Implicit Types (sig : list (string * option A)) (pos : list A) (kw b : list (string * A)).

  Lemma assoc_None b x : assoc b x = None <-> x ∉ map fst b.
  Proof.
    unfold assoc. induction b as [|[y v] b IH]; cbn [List.find map fst]; [split; [intros _ H; inversion H|done]|].
    rewrite not_elem_of_cons. destruct (String.eqb_spec x y) as [->|Hne]; [split; [done|tauto]|]. rewrite IH. tauto.
  Qed.
  Lemma assoc_Some b x v : NoDup (map fst b) -> (assoc b x = Some v <-> (x, v) ∈ b).
  Proof.
    unfold assoc. induction b as [|[y w] b IH]; cbn [List.find map fst]; intros Hn; [split; [done|intros H; inversion H]|].
    apply list.NoDup_cons in Hn as [Hy Hn]. rewrite elem_of_cons. destruct (String.eqb_spec x y) as [->|Hne]; cbn [fmap option_fmap option_map snd].
    - split; [intros [= ->]; by left|]. intros [[= ->]|H]; [done|]. exfalso. apply Hy. apply elem_of_list_fmap. by exists (y, v).
    - rewrite (IH Hn). split; [by right|]. intros [[= -> _]|H]; done.
  Qed.

  Lemma bind_kw sig b0 kw : NoDup (map fst kw) ->
    rfold (fun b kv => if bool_decide (fst kv ∈ map fst sig) && bool_decide (fst kv ∉ map fst b) then Ok (b ++ [kv]) else Err TypeError) b0 kw =
    if decide (Forall (fun kv => fst kv ∈ map fst sig /\ fst kv ∉ map fst b0) kw) then Ok (b0 ++ kw) else Err TypeError.
  Proof.
    revert b0. induction kw as [|kv kw IH]; intros b0 Hn; cbn [rfold].
    { rewrite decide_True by constructor. by rewrite app_nil_r. }
    apply list.NoDup_cons in Hn as [Hkv Hn]. destruct (decide (Forall _ (kv :: kw))) as [HF|HF].
    - apply list.Forall_cons in HF as [[H1 H2] HF]. rewrite !bool_decide_eq_true_2 by done. cbn [andb rbind]. rewrite IH by done.
      rewrite decide_True; [by rewrite <- app_assoc|]. apply list.Forall_forall. intros x Hx. rewrite list.Forall_forall in HF.
      destruct (HF x Hx) as [Hs Hb]. split; [done|]. rewrite map_app, not_elem_of_app. split; [done|]. cbn [map].
      intros Hin. apply elem_of_list_singleton in Hin. apply Hkv. rewrite <- Hin. by apply (elem_of_list_fmap_1 fst).
    - destruct (bool_decide _ && bool_decide _) eqn:E; [|done]. apply andb_true_iff in E as [H1 H2].
      apply bool_decide_eq_true in H1, H2. cbn [rbind]. rewrite IH by done. rewrite decide_False; [done|]. intros HF'. apply HF.
      constructor; [done|]. apply list.Forall_forall. intros x Hx. rewrite list.Forall_forall in HF'. destruct (HF' x Hx) as [Hs Hb].
      split; [done|]. intros Hin. apply Hb. rewrite map_app. apply elem_of_app. by left.
  Qed.

  Definition given sig pos kw (p : string * option A) : result (string * A) :=
    match assoc (zip (map fst sig) pos ++ kw) (fst p) with
    | Some v => Ok (fst p, v)
    | None => match snd p with Some v => Ok (fst p, v) | None => Err TypeError end
    end.

  Lemma zip_elem (xs : list string) pos x v : (x, v) ∈ zip xs pos <-> exists i, xs !! i = Some x /\ pos !! i = Some v.
  Proof.
    rewrite elem_of_list_lookup. setoid_rewrite lookup_zip_with_Some. split.
    - intros (i & a & b & [= -> ->] & H1 & H2). eauto.
    - intros (i & H1 & H2). exists i, x, v. done.
  Qed.

  Lemma zip_fst_NoDup (xs : list string) pos : NoDup xs -> NoDup (map fst (zip xs pos)).
  Proof.
    intros H. revert pos. induction H as [|x xs Hx H IH]; intros pos; [constructor|]. destruct pos as [|v pos]; [constructor|].
    cbn [zip zip_with map fst]. constructor; [|apply IH]. intros Hin. apply elem_of_list_fmap in Hin as ([y w] & -> & Hin).
    apply zip_elem in Hin as (i & Hi & _). apply Hx. by eapply elem_of_list_lookup_2.
  Qed.

  Lemma given_spec sig pos kw i x d v : NoDup (map fst sig) -> NoDup (map fst kw) ->
    (forall x v, (x, v) ∈ kw -> exists i d, sig !! i = Some (x, d) /\ (length pos <= i)%nat) ->
    sig !! i = Some (x, d) ->
    given sig pos kw (x, d) = Ok (x, v) <->
      pos !! i = Some v \/ (pos !! i = None /\ (x, v) ∈ kw) \/ (pos !! i = None /\ x ∉ map fst kw /\ d = Some v).
  Proof.
    intros Hs Hk Hu Hi. assert (map fst sig !! i = Some x) as Hx by (by rewrite list_lookup_fmap, Hi).
    assert (forall j, map fst sig !! j = Some x -> j = i) as Hj by (intros j Hj; exact (proj1 (NoDup_alt _) Hs _ _ _ Hj Hx)).
    assert (NoDup (map fst (zip (map fst sig) pos ++ kw))) as Hn.
    { rewrite map_app. apply NoDup_app. split; [by apply zip_fst_NoDup|]. split; [|done]. intros y Hy Hy'.
      apply elem_of_list_fmap in Hy as ([y1 w] & -> & Hy). apply elem_of_list_fmap in Hy' as ([y2 w'] & Hyy & Hy'). cbn [fst] in *. subst y2.
      apply zip_elem in Hy as (j & Hj1 & Hj2). destruct (Hu _ _ Hy') as (k & d' & Hk1 & Hk2).
      assert (map fst sig !! k = Some y1) as Hk1' by (by rewrite list_lookup_fmap, Hk1).
      assert (j = k) as -> by exact (proj1 (NoDup_alt _) Hs _ _ _ Hj1 Hk1'). apply lookup_lt_Some in Hj2. lia. }
    unfold given. cbn [fst snd].
    assert (forall w, (x, w) ∈ zip (map fst sig) pos ++ kw <-> pos !! i = Some w \/ (pos !! i = None /\ (x, w) ∈ kw)) as Hin.
    { intros w. rewrite elem_of_app, zip_elem. split.
      - intros [(j & H1 & H2)|H]; [rewrite (Hj j H1) in H2; by left|]. right. split; [|done].
        destruct (Hu _ _ H) as (k & d' & Hk1 & Hk2). rewrite (Hj k) in Hk2 by (by rewrite list_lookup_fmap, Hk1). by apply lookup_ge_None_2.
      - intros [H|[H1 H2]]; [left; by exists i|by right]. }
    destruct (assoc (zip (map fst sig) pos ++ kw) x) as [w|] eqn:E.
    - apply assoc_Some in E; [|done]. split.
      + intros [= ->]. apply Hin in E as [E|E]; [by left|by right; left].
      + intros H. f_equal. f_equal. apply (assoc_Some _ _ _ Hn) in E as E1.
        assert ((x, v) ∈ zip (map fst sig) pos ++ kw \/ (pos !! i = None /\ x ∉ map fst kw)) as [H'|[H1 H2]].
        { destruct H as [H|[H|(H1 & H2 & _)]]; [left; apply Hin; by left|left; apply Hin; by right|by right]. }
        * apply (assoc_Some _ _ _ Hn) in H'. congruence.
        * exfalso. apply Hin in E as [E|[_ E]]; [congruence|]. apply H2. apply elem_of_list_fmap. by exists (x, w).
    - apply assoc_None in E. rewrite map_app, not_elem_of_app in E. destruct E as [E1 E2].
      assert (pos !! i = None) as Hp.
      { destruct (pos !! i) as [w|] eqn:Ep; [|done]. exfalso. apply E1. apply elem_of_list_fmap. exists (x, w). split; [done|].
        apply zip_elem. eauto. }
      destruct d as [d|].
      + split; [intros [= ->]; right; right; done|]. intros [H|[[_ H]|(_ & _ & [= ->])]]; [congruence| |done].
        exfalso. apply E2. apply elem_of_list_fmap. by exists (x, v).
      + split; [done|]. intros [H|[[_ H]|(_ & _ & H)]]; [congruence| |done]. exfalso. apply E2. apply elem_of_list_fmap. by exists (x, v).
  Qed.

  Lemma given_name sig pos kw p y : given sig pos kw p = Ok y -> fst y = fst p.
  Proof. unfold given. destruct (assoc _ _); [by intros [= <-]|]. destruct (snd p); by intros [= <-]. Qed.

  Lemma given_err sig pos kw p e : given sig pos kw p = Err e -> e = TypeError.
  Proof. unfold given. destruct (assoc _ _); [done|]. destruct (snd p); [done|]. by intros [= <-]. Qed.
End Bind.

Lemma C90_binding_proof : forall (A : Type) (sig : list (string * option A)) (pos : list A) (kw : list (string * A)),
  NoDup (map fst sig) -> NoDup (map fst kw) ->
  (forall b, bind_call sig pos kw = Ok b <-> binding sig pos kw b) /\
  ((forall b, ~ binding sig pos kw b) <-> bind_call sig pos kw = Err TypeError).
Proof.
  intros A sig pos kw Hs Hk.
  assert (forall b, bind_call sig pos kw = Ok b <-> binding sig pos kw b) as G.
  { intros b. unfold bind_call, binding. destruct (Nat.ltb_spec (length sig) (length pos)) as [Hlt|Hle].
    { split; [done|]. intros [H _]. lia. }
    rewrite bind_kw by done.
    assert (Forall (fun kv => fst kv ∈ map fst sig /\ fst kv ∉ map fst (zip (map fst sig) pos)) kw <->
      (forall x v, (x, v) ∈ kw -> exists i d, sig !! i = Some (x, d) /\ (length pos <= i)%nat)) as HF.
    { rewrite list.Forall_forall. split.
      - intros H x v Hin. destruct (H _ Hin) as [H1 H2]. cbn [fst] in *. apply elem_of_list_fmap in H1 as ([x' d] & -> & H1).
        apply elem_of_list_lookup in H1 as (i & Hi). exists i, d. split; [done|]. cbn [fst] in *. destruct (decide (length pos <= i)%nat) as [|Hn]; [done|].
        exfalso. apply H2. destruct (lookup_lt_is_Some_2 pos i) as (w & Hw); [lia|]. apply elem_of_list_fmap. exists (x', w). split; [done|].
        apply zip_elem. exists i. split; [by rewrite list_lookup_fmap, Hi|done].
      - intros H [x v] Hin. destruct (H _ _ Hin) as (i & d & Hi & Hl). cbn [fst]. split.
        + apply elem_of_list_fmap. exists (x, d). split; [done|]. by eapply elem_of_list_lookup_2.
        + intros Hz. apply elem_of_list_fmap in Hz as ([x' w] & Hx & Hz). cbn [fst] in Hx. subst x'. apply zip_elem in Hz as (j & Hj & Hw).
          assert (map fst sig !! i = Some x) as Hi' by (by rewrite list_lookup_fmap, Hi).
          assert (i = j) as -> by exact (proj1 (NoDup_alt _) Hs _ _ _ Hi' Hj). apply lookup_lt_Some in Hw. lia. }
    destruct (decide _) as [HF'|HF'].
    2:{ split; [done|]. intros (_ & H & _). exfalso. apply HF'. by apply HF. }
    cbn [rbind]. pose proof (proj1 HF HF') as Hu. fold (given sig pos kw). change (rmap _ sig) with (rmap (given sig pos kw) sig).
    split.
    - intros Hr. split; [done|]. split; [done|]. apply rmap_ok in Hr. split.
      + clear -Hr. induction Hr as [|p y l l' H _ IH]; [done|]. cbn [map]. f_equal; [by apply given_name in H|done].
      + intros i x d v Hi Hb. pose proof (Forall2_lookup_lr _ _ _ _ _ _ Hr Hi Hb) as H.
        by apply (given_spec sig pos kw i x d v).
    - intros (_ & _ & Hm & Hb). apply rmap_ok. apply Forall2_same_length_lookup_2.
      { by rewrite <- (map_length fst b), Hm, map_length. }
      intros i [x d] [y v] Hi Hbi. assert (y = x) as ->.
      { assert (map fst b !! i = Some y) as E1 by (by rewrite list_lookup_fmap, Hbi). rewrite Hm, list_lookup_fmap, Hi in E1. by injection E1. }
      apply (given_spec sig pos kw i x d v); try done. by apply Hb. }
  split; [done|]. split.
  - intros H. destruct (bind_call sig pos kw) as [b|e] eqn:E; [exfalso; by apply (H b), G|]. f_equal.
    unfold bind_call in E. destruct (_ <? _)%nat; [by injection E|]. rewrite bind_kw in E by done.
    destruct (decide _); [|by injection E]. cbn [rbind] in E. change (rmap _ sig) with (rmap (given sig pos kw) sig) in E.
    clear -E. revert E. generalize sig at 2. intros l. induction l as [|p l IH]; [done|]. cbn [rmap].
    destruct (given sig pos kw p) as [y|e'] eqn:Ep; cbn [rbind]; [|intros [= ->]; by apply given_err in Ep].
    destruct (rmap (given sig pos kw) l) as [ys|e'] eqn:El; cbn [rbind]; [done|]. intros [= ->]. by apply IH.
  - intros H b Hb. apply G in Hb. congruence.
Qed.


(** ** the calls *)
Lemma call_plain (W : Type) (S : pyval -> pyval -> samplers W) (w0 : W) (ord : gset Z -> list Z) (fuel : nat)
    (ds_load : sx Data.dataset unit) (c : config) (v : string) (d : Data.dataset) :
  call_train S w0 ord fuel ds_load [ADataset; AConfig c; AVal (VStr v)] [] d = train_greedy_and_eval S w0 ord fuel ds_load c v false d.
Proof. reflexivity. Qed.

Lemma C90_calls_proof : forall (W : Type) (S : pyval -> pyval -> samplers W) (w0 : W) (ord : gset Z -> list Z) (fuel : nat)
    (ds_load : sx Data.dataset unit) (c : config) (d : Data.dataset),
  (forall n, num_rules_run S w0 ord fuel ds_load n c d = (Err TypeError, d)) /\
  (forall mode, call_train S w0 ord fuel ds_load [ADataset] [("config", AConfig c); ("validation_mode", AVal (VBool mode))] d = (Err TypeError, d)) /\
  (forall v n, call_train S w0 ord fuel ds_load [ADataset] [("config", AConfig c); ("greedy_version", AVal v); ("n_repeats", AVal n)] d = (Err TypeError, d)) /\
  (forall d', ds_load d = (Ok tt, d') -> tune_and_eval_test S w0 ord fuel ds_load c d = (Err AssertionError, d')) /\
  (forall e d', ds_load d = (Err e, d') -> tune_and_eval_test S w0 ord fuel ds_load c d = (Err e, d')) /\
  (forall v, min_proba_run S w0 ord fuel ds_load v c d =
     train_greedy_and_eval S w0 ord fuel ds_load (<["min_feature_proba" := v]> c) "v2" false d) /\
  train_run S w0 ord fuel ds_load c d = train_greedy_and_eval S w0 ord fuel ds_load c "v3" false d /\
  (forall v, c !! "greedy_version" = Some (VStr v) ->
     tune_run S w0 ord fuel ds_load c d = train_greedy_and_eval S w0 ord fuel ds_load c v true d).
Proof.
  intros W S w0 ord fuel ds_load c d. split; [done|]. split; [done|]. split; [done|]. split; [|split; [|split; [done|split; [done|]]]].
  - intros d' H. unfold tune_and_eval_test, call_train, sbind, slift. cbn. unfold sbind. by rewrite H.
  - intros e d' H. unfold tune_and_eval_test, call_train, sbind, slift. cbn. unfold sbind. by rewrite H.
  - intros v H. unfold tune_run. rewrite H. done.
Qed.



(** ** the configurations *)
Lemma names (ds : string) (l : list string) : ds ∈ l \/ Forall (fun x => String.eqb ds x = false) l.
Proof.
  destruct (decide (ds ∈ l)) as [|H]; [by left|]. right. apply list.Forall_forall. intros x Hx. destruct (String.eqb_spec ds x); [by subst|done].
Qed.

Lemma search_known ds : match search_space ds with
                        | Ok _ => ds ∈ map fst tuned
                        | Err e => ds ∉ map fst tuned /\ e = if String.eqb ds "cal500" then NotImplementedError else UnboundLocalError
                        end.
Proof.
  destruct (names ds ["toy"; "emotions"; "mediamill"; "birds"; "cal500"; "enron"; "bibtex"; "medical"]) as [H|H].
  - repeat (apply elem_of_cons in H as [->|H];
      [cbn -[elem_of tuned]; first [split; [|done]|idtac]; by apply (bool_decide_unpack _)|]). by inversion H.
  - repeat (apply list.Forall_cons in H as [? H]). unfold search_space. repeat match goal with E : String.eqb ds _ = false |- _ => rewrite E end.
    split; [|done]. cbn [tuned map fst]. intros Hin. repeat (apply elem_of_cons in Hin as [->|Hin]; [done|]). by inversion Hin.
Qed.

Lemma dec_percent a b z : Qeq (Qmake a b) (Qmake z 100) -> dec a b = percent z.
Proof. intros H. unfold dec, percent. f_equal. by apply Qc_is_canon; cbn; rewrite !Qred_correct. Qed.

Lemma dict_lookup {A} (f : A -> pyval) (l : list (string * A)) k :
  (list_to_map (map (fun p => (fst p, f (snd p))) l) : gmap string pyval) !! k = f <$> assoc l k.
Proof.
  unfold assoc. induction l as [|[x a] l IH]; [done|]. cbn [map fst snd List.find]. rewrite list_to_map_cons.
  destruct (String.eqb_spec k x) as [->|Hne]; [by rewrite lookup_insert|]. by rewrite lookup_insert_ne.
Qed.

Definition pick (lambd : Qc) (n : Z) (d : domain) : pyval :=
  match d with Fixed v => v | LogUniform _ _ => VFloat lambd | RandInt _ _ => VInt n end.

Lemma pick_drawn (lambd : Qc) (n : Z) sp :
  Forall (fun p : string * domain => in_domain (snd p) (pick lambd n (snd p))) sp ->
  drawn sp (list_to_map (map (fun p => (fst p, pick lambd n (snd p))) sp)).
Proof.
  intros HF k. rewrite dict_lookup. destruct (assoc sp k) as [d|] eqn:E; [|done]. cbn [fmap option_fmap option_map].
  eexists. split; [done|]. unfold assoc in E. destruct (List.find _ sp) as [[x d']|] eqn:Ef; [|done].
  apply List.find_some in Ef as [Hin _]. injection E as ->. rewrite list.Forall_forall in HF. apply (HF (x, d)). by apply elem_of_list_In.
Qed.

Lemma built c version :
  version = "v2" \/ version = "v3" -> exists o, create_greedy_clf_from_config_by_version c version = Ok o /\
    attr o "lambd" = Ok (default (VFloat (Q2Qc 10)) (c !! "lambd")) /\
    attr o "n_max_rules" = Ok (default (VInt 10) (c !! "n_max_rules")) /\
    attr o "min_feature_proba" = Ok (default (percent 80) (c !! "min_feature_proba")) /\
    attr o "min_label_proba" = Ok (default (percent 80) (c !! "min_label_proba")) /\
    attr o "n_tails_per_iter" = Ok (default (VInt 100) (c !! "n_tails_per_iter")) /\
    attr o "n_heads_per_tail" = Ok (default (VInt 10) (c !! "n_heads_per_tail")).
Proof.
  assert (VFloat (Q2Qc (Qmake 8 10)) = percent 80) as E by (unfold percent; f_equal; by apply Qc_is_canon).
  intros [-> | ->]; eexists; (split; [reflexivity|]); rewrite <- E; by split_and!.
Qed.

Lemma chosen_default c k d : (k, d) ∈ documented_v23 -> chosen documented_v23 c k (default d (c !! k)).
Proof. intros H. unfold chosen. destruct (c !! k); [by left|by right]. Qed.

Lemma usable_of (c : config) (lambd : R) (n_tails n_heads n_max : Z) :
  real_of (default (VFloat (Q2Qc 10)) (c !! "lambd")) lambd -> (0 < lambd)%R ->
  default (VInt 100) (c !! "n_tails_per_iter") = VInt n_tails -> 1 <= n_tails ->
  default (VInt 10) (c !! "n_heads_per_tail") = VInt n_heads -> 1 <= n_heads ->
  default (VInt 10) (c !! "n_max_rules") = VInt n_max -> 1 <= n_max ->
  fraction (default (VFloat (Q2Qc (Qmake 4 5))) (c !! "min_feature_proba")) ->
  fraction (default (VFloat (Q2Qc (Qmake 4 5))) (c !! "min_label_proba")) -> usable c.
Proof.
  intros. exists (default (VFloat (Q2Qc 10)) (c !! "lambd")), (default (VFloat (Q2Qc (Qmake 4 5))) (c !! "min_feature_proba")),
    (default (VFloat (Q2Qc (Qmake 4 5))) (c !! "min_label_proba")), lambd, n_tails, n_heads, n_max.
  assert (forall k d, (k, d) ∈ documented_v23 -> chosen documented_v23 c k (default d (c !! k))) as G by apply chosen_default.
  split_and!; try done.
  1,5,6: apply G; unfold documented_v23; rewrite !elem_of_cons; tauto.
  - rewrite <- H1. apply G. unfold documented_v23; rewrite !elem_of_cons; tauto.
  - rewrite <- H3. apply G. unfold documented_v23; rewrite !elem_of_cons; tauto.
  - rewrite <- H5. apply G. unfold documented_v23; rewrite !elem_of_cons; tauto.
Qed.

Lemma fraction_q (a : Z) (b : positive) : 0 <= a -> a <= Z.pos b -> fraction (VFloat (Q2Qc (Qmake a b))).
Proof.
  intros H0 H1. eexists. split; [done|]. unfold Qcle. cbn [this Q2Qc]. rewrite !Qred_correct. unfold Qle. cbn. lia.
Qed.

Lemma ge_one_pos (q : Qc) : (1 <= q)%Qc -> (0 < Q2R (this q))%R.
Proof.
  intros H. unfold Qcle in H. apply Qle_Rle in H. replace (Q2R (this 1%Qc)) with 1%R in H; [lra|]. change (this 1%Qc) with 1%Q. unfold Q2R. cbn. lra.
Qed.

Lemma C90_search_proof : forall (ds version : string),
  ((exists sp, tune_space ds version = Ok sp) <-> ds ∈ map fst tuned) /\
  (ds ∉ map fst tuned -> ds <> "cal500" -> tune_space ds version = Err UnboundLocalError) /\
  tune_space "cal500" version = Err NotImplementedError /\
  forall sp fp lp hi first last, tune_space ds version = Ok sp -> (ds, (fp, lp, hi, first, last)) ∈ tuned ->
    (forall c, drawn sp c -> exists (lambd : Qc) (n : Z),
       (1 <= lambd <= Qc_of_Z hi)%Qc /\ first <= n <= last /\
       c !! "greedy_version" = Some (VStr version) /\ c !! "dataset" = Some (VStr ds) /\ usable c /\
       ((version = "v2" \/ version = "v3") -> exists o, create_greedy_clf_from_config_by_version c version = Ok o /\
         attr o "lambd" = Ok (VFloat lambd) /\ attr o "n_max_rules" = Ok (VInt n) /\
         attr o "min_feature_proba" = Ok (percent fp) /\ attr o "min_label_proba" = Ok (percent lp) /\
         attr o "n_tails_per_iter" = Ok (VInt 100) /\ attr o "n_heads_per_tail" = Ok (VInt 10))) /\
    (forall (lambd : Qc) (n : Z), (1 <= lambd <= Qc_of_Z hi)%Qc -> first <= n <= last ->
       exists c, drawn sp c /\ c !! "lambd" = Some (VFloat lambd) /\ c !! "n_max_rules" = Some (VInt n)).
Proof.
  intros ds version. pose proof (search_known ds) as Hk. unfold tune_space. split; [|split; [|split; [done|]]].
  - destruct (search_space ds); cbn [rbind]; split; try done; [by eexists|by intros []|]. intros. by destruct Hk.
  - intros Hn Hc. destruct (search_space ds) as [sp|e]; [done|]. cbn [rbind]. destruct Hk as [_ ->].
    by destruct (String.eqb_spec ds "cal500").
  - intros sp fp lp hi first last Hsp Hin. clear Hk. unfold tuned in Hin.
    assert (forall sp0, search_space ds = Ok sp0 ->
      (forall c, drawn sp c -> 
        default (VInt 100) (c !! "n_tails_per_iter") = VInt 100 /\ default (VInt 10) (c !! "n_heads_per_tail") = VInt 10 /\
        default (percent 80) (c !! "min_feature_proba") = percent fp /\ default (percent 80) (c !! "min_label_proba") = percent lp /\
        c !! "greedy_version" = Some (VStr version) /\ c !! "dataset" = Some (VStr ds) /\
        0 <= fp <= 100 /\ 0 <= lp <= 100 /\ 1 <= first /\
        exists lambd n, c !! "lambd" = Some (VFloat lambd) /\ (1 <= lambd <= Qc_of_Z hi)%Qc /\ c !! "n_max_rules" = Some (VInt n) /\ first <= n <= last) /\
      (forall lambd n, (1 <= lambd <= Qc_of_Z hi)%Qc -> first <= n <= last ->
         Forall (fun p : string * domain => in_domain (snd p) (pick lambd n (snd p))) sp /\
         pick lambd n <$> assoc sp "lambd" = Some (VFloat lambd) /\ pick lambd n <$> assoc sp "n_max_rules" = Some (VInt n))) as G.
    { intros sp0 H0. rewrite H0 in Hsp. cbn [rbind] in Hsp. injection Hsp as <-.
      assert (dec 8 10 = percent 80 /\ dec 5 10 = percent 50 /\ dec 95 100 = percent 95 /\ dec 1 1 = percent 100) as (D1 & D2 & D3 & D4)
        by (split_and!; by apply dec_percent).
      repeat (apply elem_of_cons in Hin as [[= -> -> -> -> -> ->]|Hin];
        [cbn in H0; injection H0 as <-; split;
         [intros c Hd; pose proof (Hd "n_tails_per_iter") as Ht; pose proof (Hd "n_heads_per_tail") as Hh; pose proof (Hd "min_feature_proba") as Hf;
          pose proof (Hd "min_label_proba") as Hl; pose proof (Hd "greedy_version") as Hv; pose proof (Hd "dataset") as Hs;
          pose proof (Hd "lambd") as Hla; pose proof (Hd "n_max_rules") as Hm; cbn -[dec] in Ht, Hh, Hf, Hl, Hv, Hs, Hla, Hm;
          destruct Hv as (? & -> & ->), Hs as (? & -> & ->), Hla as (? & -> & lambd & -> & ?), Hm as (? & -> & n & -> & ?);
          rewrite Ht, Hh;
          first [destruct Hf as (? & -> & ->)|rewrite Hf]; first [destruct Hl as (? & -> & ->)|rewrite Hl]; cbn -[dec percent];
          split_and!; try done; try lia; exists lambd, n; split_and!; try done; try tauto; lia
         |intros lambd n H1 H2; split_and!; [|done|done]; repeat constructor; cbn [in_domain pick snd]; eauto;
          eexists; (split; [reflexivity|]); lia]
        |]). by inversion Hin. }
    destruct (search_space ds) as [sp0|e] eqn:E0; [|done]. destruct (G sp0 eq_refl) as [G1 G2]. split.
    + intros c Hc. destruct (G1 c Hc) as (H1 & H2 & H3 & H4 & H5 & H6 & H7 & H8 & H9 & lambd & n & Hl & Hlr & Hn & Hnr).
      exists lambd, n. split; [done|]. split; [done|]. split; [done|]. split; [done|]. split.
      * assert (forall z, percent z = VFloat (Q2Qc (Qmake z 100))) as Ep by done.
        assert (VFloat (Q2Qc (Qmake 4 5)) = percent 80) as E45 by (unfold percent; f_equal; by apply Qc_is_canon).
        apply (usable_of c (Q2R (this lambd)) 100 10 n); try done; try lia.
        -- rewrite Hl. right. by exists lambd.
        -- apply ge_one_pos. tauto.
        -- by rewrite Hn.
        -- rewrite E45, H3. apply fraction_q; lia.
        -- rewrite E45, H4. apply fraction_q; lia.
      * intros Hv. destruct (built c version Hv) as (o & Ho & B1 & B2 & B3 & B4 & B5 & B6). exists o. split; [done|].
        rewrite B1, B2, B3, B4, B5, B6, H1, H2, H3, H4, Hl, Hn. done.
    + intros lambd n Hl Hn. destruct (G2 lambd n Hl Hn) as (HF & E1 & E2). eexists. split; [by apply pick_drawn|].
      rewrite !dict_lookup. done.
Qed.


Lemma real_of_dec (a : Z) (b : positive) : real_of (dec a b) (Q2R (Qmake a b)).
Proof. right. eexists. split; [done|]. apply Qeq_eqR. cbn [this Q2Qc]. by rewrite Qred_correct. Qed.
Lemma dec_pos (a b : positive) : (0 < Q2R (Qmake (Z.pos a) b))%R.
Proof. unfold Q2R. cbn. apply Rmult_lt_0_compat; [by apply IZR_lt|]. apply Rinv_0_lt_compat. by apply IZR_lt. Qed.

Ltac use_config lam nt nh nm := apply (usable_of _ lam nt nh nm);
  [cbn -[Q2Qc dec]; first [apply real_of_dec|by apply (real_of_dec 10 1)|left; by eexists]
  |first [apply dec_pos|by apply IZR_lt]|reflexivity|lia|reflexivity|lia|reflexivity|lia
  |cbn -[Q2Qc]; by apply fraction_q|cbn -[Q2Qc]; by apply fraction_q].

Lemma usable_set (k : string) (v : pyval) (c : config) (lambd : R) (n_tails n_heads n_max : Z) :
  let g x := if String.eqb x k then Some v else c !! x in
  real_of (default (VFloat (Q2Qc 10)) (g "lambd")) lambd -> (0 < lambd)%R ->
  default (VInt 100) (g "n_tails_per_iter") = VInt n_tails -> 1 <= n_tails ->
  default (VInt 10) (g "n_heads_per_tail") = VInt n_heads -> 1 <= n_heads ->
  default (VInt 10) (g "n_max_rules") = VInt n_max -> 1 <= n_max ->
  fraction (default (VFloat (Q2Qc (Qmake 4 5))) (g "min_feature_proba")) ->
  fraction (default (VFloat (Q2Qc (Qmake 4 5))) (g "min_label_proba")) -> usable (<[k := v]> c).
Proof.
  intros g. assert (forall x, g x = (<[k := v]> (c : gmap string pyval)) !! x) as E.
  { intros x. unfold g. destruct (String.eqb_spec x k) as [->|Hne]; [by rewrite lookup_insert|by rewrite lookup_insert_ne]. }
  rewrite !E. apply usable_of.
Qed.

Lemma C90_setups_proof : forall ds : string,
  (usable (fst (train_setup ds)) /\ 1 <= snd (train_setup ds)) /\
  (ds ∉ ["toy"; "bibtex"; "medical"; "emotions"; "birds"; "enron"; "mediamill"] ->
     forall key, key <> "n_tails_per_iter" -> key <> "n_heads_per_tail" -> fst (train_setup ds) !! key = None) /\
  ((exists r, min_proba_setup ds = Ok r) <-> ds ∈ ["toy"; "bibtex"; "medical"; "emotions"]) /\
  (forall c probas n, min_proba_setup ds = Ok (c, probas, n) -> 1 <= n /\ probas <> [] /\
     forall p, p ∈ probas -> fraction p /\ usable (<["min_feature_proba" := p]> c)) /\
  ((exists r, num_rules_setup ds = Ok r) <-> ds ∈ ["toy"; "enron"; "medical"]) /\
  (forall c rules n, num_rules_setup ds = Ok (c, rules, n) -> 1 <= n /\ rules <> [] /\
     forall k, k ∈ rules -> 1 <= k /\ usable (<["n_max_rules" := VInt k]> c)).
Proof.
  intros ds. split_and!.
  - destruct (names ds ["toy"; "bibtex"; "medical"; "emotions"; "birds"; "enron"; "mediamill"]) as [H|H].
    + repeat (apply elem_of_cons in H as [->|H]; [cbn [train_setup fst String.eqb Ascii.eqb]|]); [..|by inversion H].
      * use_config (Q2R (Qmake 10 1)) 10 1 10.
      * use_config (Q2R (Qmake 120381 100000)) 1000 10 84.
      * use_config (Q2R (Qmake 595374 100000)) 1000 10 49.
      * use_config (Q2R (Qmake 121086 100000)) 1000 10 19.
      * use_config (Q2R (Qmake 11066 10000)) 1000 10 48.
      * use_config (Q2R (Qmake 105774 100000)) 1000 10 49.
      * use_config (Q2R (Qmake 133413 100000)) 1000 10 44.
    + repeat (apply list.Forall_cons in H as [? H]). unfold train_setup. repeat match goal with E : String.eqb ds _ = false |- _ => rewrite E end.
      cbn [fst]. use_config (Q2R (Qmake 10 1)) 1000 10 10.
  - unfold train_setup. repeat (destruct (String.eqb ds _); [done|]). done.
  - intros H key H1 H2. unfold train_setup.
    repeat match goal with |- context [String.eqb ds ?x] =>
      destruct (String.eqb_spec ds x) as [->|_]; [exfalso; apply H; by apply (bool_decide_unpack _)|] end.
    cbn [fst]. unfold dict. apply not_elem_of_list_to_map. cbn. intros Hin. repeat (apply elem_of_cons in Hin as [->|Hin]; [done|]). by inversion Hin.
  - unfold min_proba_setup. split.
    + intros [r Hr]. repeat match type of Hr with context [String.eqb ds ?x] =>
        destruct (String.eqb_spec ds x) as [->|_]; [by apply (bool_decide_unpack _)|] end. done.
    + intros H. repeat (apply elem_of_cons in H as [->|H]; [by eexists|]). by inversion H.
  - intros c probas n Hr. unfold config in c. unfold min_proba_setup in Hr.
    assert (forall a b, 0 <= a -> a <= Z.pos b -> fraction (dec a b)) as F by (intros; by apply fraction_q).
    assert (forall a b lam nt nh nm, 0 <= a -> a <= Z.pos b -> real_of (default (VFloat (Q2Qc 10)) (c !! "lambd")) lam -> (0 < lam)%R ->
      default (VInt 100) (c !! "n_tails_per_iter") = VInt nt -> 1 <= nt -> default (VInt 10) (c !! "n_heads_per_tail") = VInt nh -> 1 <= nh ->
      default (VInt 10) (c !! "n_max_rules") = VInt nm -> 1 <= nm -> fraction (default (VFloat (Q2Qc (Qmake 4 5))) (c !! "min_label_proba")) ->
      usable (<["min_feature_proba" := dec a b]> c)) as U.
    { intros a b lam nt nh nm ? ? ? ? ? ? ? ? ? ? ?. apply (usable_set _ _ _ lam nt nh nm); try done.
      by apply F. }
    assert (forall lam nt nh nm l, probas = map (fun p => dec (fst p) (snd p)) l -> l <> [] ->
      Forall (fun p => 0 <= fst p /\ fst p <= Z.pos (snd p)) l -> real_of (default (VFloat (Q2Qc 10)) (c !! "lambd")) lam -> (0 < lam)%R ->
      default (VInt 100) (c !! "n_tails_per_iter") = VInt nt -> 1 <= nt -> default (VInt 10) (c !! "n_heads_per_tail") = VInt nh -> 1 <= nh ->
      default (VInt 10) (c !! "n_max_rules") = VInt nm -> 1 <= nm -> fraction (default (VFloat (Q2Qc (Qmake 4 5))) (c !! "min_label_proba")) ->
      1 <= n -> 1 <= n /\ probas <> [] /\ forall p, p ∈ probas -> fraction p /\ usable (<["min_feature_proba" := p]> c)) as V.
    { intros lam nt nh nm l -> Hl HF ? ? ? ? ? ? ? ? ? ?. split; [done|]. split; [by destruct l|].
      intros p Hp. apply elem_of_list_fmap in Hp as ([a b] & -> & Hp). rewrite list.Forall_forall in HF. destruct (HF _ Hp) as [? ?].
      cbn [fst snd] in *. split; [by apply F|]. by apply (U a b lam nt nh nm). }
    destruct (String.eqb ds "toy").
    { injection Hr as <- <- <-. apply (V (Q2R (Qmake 10 1)) 10 1 10 [(0, 1%positive); (5, 10%positive); (1, 1%positive)]); try done.
      - by apply (bool_decide_unpack _).
      - by apply (real_of_dec 10 1).
      - apply dec_pos.
      - by apply fraction_q. }
    destruct (String.eqb ds "bibtex").
    { injection Hr as <- <- <-. apply (V (Q2R (Qmake 214 100)) 1000 10 85 [(7, 10%positive); (8, 10%positive); (9, 10%positive); (1, 1%positive)]); try done.
      - by apply (bool_decide_unpack _).
      - apply real_of_dec.
      - apply dec_pos.
      - by apply fraction_q. }
    destruct (String.eqb ds "medical").
    { injection Hr as <- <- <-. apply (V (Q2R (Qmake 4205799926225756 100000000000000)) 1000 10 40
        [(4, 10%positive); (5, 10%positive); (6, 10%positive); (7, 10%positive); (8, 10%positive); (9, 10%positive); (1, 1%positive)]); try done.
      - by apply (bool_decide_unpack _).
      - apply real_of_dec.
      - apply dec_pos.
      - by apply fraction_q. }
    destruct (String.eqb ds "emotions"); [|done].
    { injection Hr as <- <- <-. apply (V (Q2R (Qmake 10092288035165227 10000000000000000)) 1000 10 25
        [(5, 10%positive); (6, 10%positive); (7, 10%positive); (8, 10%positive); (9, 10%positive); (1, 1%positive)]); try done.
      - by apply (bool_decide_unpack _).
      - apply real_of_dec.
      - apply dec_pos.
      - by apply fraction_q. }
  - unfold num_rules_setup. split.
    + intros [r Hr]. repeat match type of Hr with context [String.eqb ds ?x] =>
        destruct (String.eqb_spec ds x) as [->|_]; [by apply (bool_decide_unpack _)|] end. done.
    + intros H. repeat (apply elem_of_cons in H as [->|H]; [by eexists|]). by inversion H.
  - intros c rules n Hr. unfold config in c. unfold num_rules_setup in Hr.
    assert (forall k lam, 1 <= k -> real_of (default (VFloat (Q2Qc 10)) (c !! "lambd")) lam -> (0 < lam)%R ->
      default (VInt 100) (c !! "n_tails_per_iter") = VInt 100 -> default (VInt 10) (c !! "n_heads_per_tail") = VInt 10 ->
      fraction (default (VFloat (Q2Qc (Qmake 4 5))) (c !! "min_feature_proba")) ->
      fraction (default (VFloat (Q2Qc (Qmake 4 5))) (c !! "min_label_proba")) -> 1 <= k /\ usable (<["n_max_rules" := VInt k]> c)) as U.
    { intros k lam ? ? ? ? ? ? ?. split; [done|]. by apply (usable_set _ _ _ lam 100 10 k). }
    destruct (String.eqb ds "toy").
    { injection Hr as <- <- <-. split_and!; [done..|]. intros k Hk. apply (U k (Q2R (Qmake 10 1))).
      - assert (Forall (fun k => 1 <= k) [1; 2]) as HF by (by apply (bool_decide_unpack _)). rewrite list.Forall_forall in HF. by apply HF.
      - by apply (real_of_dec 10 1).
      - apply dec_pos.
      - done.
      - done.
      - by apply fraction_q.
      - by apply fraction_q. }
    destruct (String.eqb ds "enron").
    { injection Hr as <- <- <-. split_and!; [done..|]. intros k Hk. apply (U k 10%R).
      - assert (Forall (fun k => 1 <= k) [10; 20; 30; 40; 50; 60]) as HF by (by apply (bool_decide_unpack _)). rewrite list.Forall_forall in HF. by apply HF.
      - left. by exists 10.
      - lra.
      - done.
      - done.
      - by apply fraction_q.
      - by apply fraction_q. }
    destruct (String.eqb ds "medical"); [|done].
    { injection Hr as <- <- <-. split_and!; [done..|]. intros k Hk. apply (U k 140%R).
      - assert (Forall (fun k => 1 <= k) [30; 40; 50; 60; 70]) as HF by (by apply (bool_decide_unpack _)). rewrite list.Forall_forall in HF. by apply HF.
      - left. by exists 140.
      - lra.
      - done.
      - done.
      - by apply fraction_q.
      - by apply fraction_q. }
Qed.
