(** Proofs of the property theorems of Properties/P_Details.v. *)
From Coq Require Import Lra.
From Verif.Model Require Import PyBase PyReal Sparse Utils Graph Cliques Trie Assign RandR Cftp.
From Verif.Spec Require Import SMatrix SAssign SCftp SDetails.
Open Scope Z_scope.
From Verif.Proofs Require Import PBase PRand PRandR PCftp T_Cftp.
Open Scope Z_scope.

(** ** differences of expectations *)
Lemma rsum_minus_imap (ps : list R) (g h : nat -> R) :
  (rsum (imap (fun i p => p * g i) ps) - rsum (imap (fun i p => p * h i) ps) = rsum (imap (fun i p => p * (g i - h i)) ps))%R.
Proof.
  revert g h. induction ps as [|p ps IH]; intros g h; cbn [imap]; [unfold rsum; simpl; lra|].
  rewrite !rsum_cons. pose proof (IH (fun i => g (Datatypes.S i)) (fun i => h (Datatypes.S i))) as E. unfold compose. lra.
Qed.

Lemma hexpect_minus {A} (f g : result A -> R) (m : rrand A) v w : hexpect f m v -> hexpect g m w -> hexpect (fun o => f o - g o)%R m (v - w).
Proof.
  intros H. revert w. induction H as [a|e|ps k g' v Hk IH ->|k g' v Hk IH Hv]; intros w H'; inversion H'; subst.
  - apply (HRet (fun o => f o - g o)%R).
  - apply (HFail (fun o => f o - g o)%R).
  - apply (HChoose _ _ _ (fun i => g' i - g0 i)%R); [|apply rsum_minus_imap]. intros i p Hp Hn. eauto.
  - apply (HUnif _ _ (fun u => g' u - g0 u)%R); [intros u Hu; eauto|].
    apply (Coquelicot.RInt.is_RInt_minus (V := Coquelicot.Hierarchy.R_NormedModule)); done.
Qed.

Section loop.
  Context (Wpos Wneg : gmap Z R) (pos neg : list Z) (weight : Z -> Z -> result Z) (max_iters : Z).
  Context (wp wn : Z -> R) (w2 : Z -> Z -> Z).
  Hypothesis H1 : forall p, p ∈ pos -> Wpos !! p = Some (wp p) /\ (0 <= wp p)%R.
  Hypothesis H2 : forall n, n ∈ neg -> Wneg !! n = Some (wn n) /\ (0 <= wn n)%R.
  Hypothesis H3 : forall p n, p ∈ pos -> n ∈ neg -> weight p n = Ok (w2 p n) /\ 0 <= w2 p n /\ (IZR (w2 p n) <= wp p * wn n)%R.
  Hypothesis HSp : (0 < rsum (map wp pos))%R.
  Hypothesis HSn : (0 < rsum (map wn neg))%R.
  Notation c := (the_cftp Wpos Wneg pos neg weight max_iters wp wn).
  Notation W := (W w2).
  Notation run := (run wp wn W).
  Notation goodX := (goodX pos neg wp wn).
  Notation Law := (Law pos neg wp wn W).

  (** the loop stops with a pair after at most 2^j steps *)
  Lemma loop_early (j : Z) (G : Z * Z -> R) f : 0 <= j -> 2 ^ j <= max_iters ->
    (forall d h st, f (Ok (Some (Some d, Some h), st)) = if zlen h <=? 2 ^ j then G d else 0%R) ->
    (forall h st, f (Ok (Some (None, h), st)) = 0%R) ->
    forall fuel i hist st, 0 <= i -> stlen st (before i) -> Forall goodX (trip st) -> run None (trip st) = None ->
      (i = 0 \/ 2 ^ (i - 1) <= max_iters) -> max_iters + 2 <= Z.of_nat fuel + i -> (1 <= fuel)%nat ->
      hexpect f (sample_loop fuel c i hist st)
        (if i <=? j then Law (Z.to_nat (2 ^ j) - before i) (fun s => match run s (trip st) with Some d => G d | None => 0%R end) else 0%R).
  Proof.
    intros Hj0 Hj Hf Hfn. induction fuel as [|fuel IH]; intros i hist st Hi Hst Hgood Hnone Hlow Hfuel Hf1; [lia|].
    cbn [sample_loop]. cbn [cf_max_iters the_cftp]. destruct (Z.ltb_spec max_iters (2 ^ i)) as [Hgt|Hle].
    - destruct (Z.leb_spec i j) as [Hij|Hij].
      + pose proof (Z.pow_le_mono_r 2 i j ltac:(lia) Hij). lia.
      + rewrite <- (Hfn hist st). constructor.
    - pose proof (sums_nz Wpos Wneg pos neg weight max_iters wp wn HSp HSn) as Hnz. cbn [the_cftp] in Hnz. rewrite Hnz.
      pose proof (before_le i Hi) as Hb. pose proof (Z.pow_pos_nonneg 2 i ltac:(lia) Hi) as Hp2.
      assert (Hir : i < 2 ^ i) by (apply Z.pow_gt_lin_r; lia).
      set (m := (Z.to_nat (2 ^ i) - before i)%nat).
      (* what can follow the draws *)
      assert (Hnext : forall us ps ns, draws pos neg wp wn m us ps ns -> forall v,
        (run None (trip (prepend us ps ns st)) = None -> v = if i + 1 <=? j then Law (Z.to_nat (2 ^ j) - before (i + 1)) (fun s => match run s (trip (prepend us ps ns st)) with Some d => G d | None => 0%R end) else 0%R) ->
        (forall d, run None (trip (prepend us ps ns st)) = Some d -> v = if i <=? j then G d else 0%R) ->
        hexpect f (let* '(D, h) := rlift (simulate_backwards c (prepend us ps ns st)) in
                   match D with Some d => RRet (Some (Some d, Some h), prepend us ps ns st) | None => sample_loop fuel c (i + 1) (Some h) (prepend us ps ns st) end) v).
      { intros us ps ns Hd v Hv0 Hv1.
        assert (Hgood' : Forall goodX (trip (prepend us ps ns st))).
        { rewrite (trip_prepend pos neg wp wn _ _ _ _ _ Hd). apply Forall_app. split; [by eapply draws_good|done]. }
        assert (Hlen' : stlen (prepend us ps ns st) (before (i + 1))).
        { rewrite before_next by done. replace (Z.to_nat (2 ^ i)) with (m + before i)%nat by lia. by eapply prepend_len. }
        destruct (simulate_ok Wpos Wneg pos neg weight max_iters wp wn w2 H1 H2 H3 _ Hgood') as (h & Eh & Hlh). rewrite Eh. cbn [rlift rrbind].
        assert (Hlt : length (trip (prepend us ps ns st)) = Z.to_nat (2 ^ i)).
        { unfold trip. rewrite !zip_with_length. destruct Hlen' as (-> & -> & ->). rewrite before_next by done. lia. }
        destruct (run None (trip (prepend us ps ns st))) as [d|] eqn:Er.
        - rewrite (Hv1 d eq_refl). assert (E : (i <=? j) = (zlen h <=? 2 ^ j)).
          { unfold zlen. rewrite Hlh, Hlt, Z2Nat.id by lia. destruct (Z.leb_spec i j) as [Hij|Hij].
            - symmetry. apply Z.leb_le. apply Z.pow_le_mono_r; lia.
            - symmetry. apply Z.leb_gt. apply Z.pow_lt_mono_r; lia. }
          rewrite E, <- (Hf d h (prepend us ps ns st)). constructor.
        - rewrite (Hv0 eq_refl). apply IH; try done; try lia.
          right. replace (i + 1 - 1) with i by lia. done. }
      destruct (Z.leb_spec i j) as [Hij|Hij].
      + pose proof (Z.pow_le_mono_r 2 i j ltac:(lia) Hij) as Hij2.
        set (r := (Z.to_nat (2 ^ j) - Z.to_nat (2 ^ i))%nat). set (F := fun s : option (Z * Z) => match s with Some d => G d | None => 0%R end).
        replace (Z.to_nat (2 ^ j) - before i)%nat with (r + m)%nat by lia.
        rewrite <- (Law_iter pos neg wp wn W (HWp' Wpos pos wp H1) (HWn' Wneg neg wn H2) (HW' pos neg weight wp wn w2 H3) HSp HSn m r).
        rewrite (Law_comb pos neg wp wn w2).
        set (g := fun o : result cstate => match o with Ok st' => Law r (fun s => F (run s (trip st'))) | Err e => f (Err e) end).
        apply (hbind _ _ _ g).
        * apply (add_data_expect Wpos Wneg pos neg weight max_iters wp wn w2 H1 H2 H3 HSp HSn st (before i) (2 ^ i) _ (fun s => F (run s (trip st)))); [done..|lia| |].
          -- intros a. apply allst_ok.
          -- intros us ps ns Hd. unfold g. rewrite <- Law_comb. rewrite (trip_prepend pos neg wp wn _ _ _ _ _ Hd).
             unfold PCftp.Law. rewrite PCftp.run_app. f_equal. apply S2_ext. intros pn _. by rewrite PCftp.run_app.
        * intros st' Hst'. apply (add_data_can Wpos Wneg pos neg weight max_iters wp wn H1 H2 HSp HSn st (before i)) in Hst' as (us & ps & ns & Hd & [= ->]); [|done|done|lia].
          fold m in Hd. apply (Hnext us ps ns Hd).
          -- intros Er. unfold g. destruct (Z.leb_spec (i + 1) j) as [Hij'|Hij'].
             ++ unfold r, F. rewrite before_next by done. reflexivity.
             ++ assert (r = 0%nat) as -> by (unfold r; replace j with i by lia; lia).
                unfold PCftp.Law. rewrite Er, pow_O. unfold F. rewrite (S2_ext pos neg _ (fun _ => 0 * 0)%R) by (intros; ring). rewrite S2_scal. ring.
          -- intros d Er. unfold g. apply (Law_const pos neg wp wn W (HW' pos neg weight wp wn w2 H3) r).
             ++ by rewrite Er.
             ++ intros pn Hin Hw. assert (E : run (Some pn) (trip (prepend us ps ns st)) = Some d); [|by rewrite E].
                apply (run_coalesce pos neg wp wn W (HW' pos neg weight wp wn w2 H3)); [split; done| |done].
                rewrite (trip_prepend pos neg wp wn _ _ _ _ _ Hd). apply Forall_app. split; [by eapply draws_good|done].
        * intros e He. apply (add_data_can Wpos Wneg pos neg weight max_iters wp wn H1 H2 HSp HSn st (before i)) in He as (us & ps & ns & Hd & ?); [done|done|done|lia].
      + set (g := fun o : result cstate => match o with Ok st' => 0%R | Err e => f (Err e) end).
        apply (hbind _ _ _ g).
        * change 0%R with (comb [] (Nat.iter (Z.to_nat (2 ^ i) - before i) (K pos neg wp wn W) (fun _ => 0%R))).
          apply (add_data_expect Wpos Wneg pos neg weight max_iters wp wn w2 H1 H2 H3 HSp HSn st (before i) (2 ^ i) [] (fun _ => 0%R)); [done..|lia| |].
          -- intros a Ha. by apply elem_of_nil in Ha.
          -- intros us ps ns Hd. done.
        * intros st' Hst'. apply (add_data_can Wpos Wneg pos neg weight max_iters wp wn H1 H2 HSp HSn st (before i)) in Hst' as (us & ps & ns & Hd & [= ->]); [|done|done|lia].
          fold m in Hd. apply (Hnext us ps ns Hd); [|done]. intros _. unfold g. destruct (Z.leb_spec (i + 1) j); [lia|done].
        * intros e He. apply (add_data_can Wpos Wneg pos neg weight max_iters wp wn H1 H2 HSp HSn st (before i)) in He as (us & ps & ns & Hd & ?); [done|done|done|lia].
  Qed.
End loop.

Section draw.
  Context (Wpos Wneg : gmap Z R) (pos neg : list Z) (weight : Z -> Z -> result Z) (max_iters : Z) (w : Z -> Z -> Z) (c : cftp).
  Hypothesis Hdom : dominated Wpos Wneg pos neg weight w.
  Hypothesis Hinit : cftp_init Wpos Wneg pos neg weight max_iters = Ok c.
  Hypothesis HSp : (0 < pmass Wpos pos)%R.
  Hypothesis HSn : (0 < pmass Wneg neg)%R.
  Notation L := (Law pos neg (pweight Wpos) (pweight Wneg) (W w)).
  Notation so := (sample_outcome Wpos Wneg pos neg weight max_iters w c Hdom Hinit HSp HSn).

  Lemma loop_outcome o : 1 <= max_iters -> rcan (sample_loop (Z.to_nat max_iters + 2) c 0 None cstate_empty) o ->
    exists st j D h, 0 <= j /\ o = Ok (Some (D, Some h), st) /\ zlen h = 2 ^ j /\ 2 ^ j <= max_iters /\ (D = None -> max_iters < 2 ^ (j + 1)).
  Proof.
    intros Hm Ho. apply so in Ho as (st & j & D & h & Hpd & -> & HD & Hj & Hj0 & Hj1 & HN & Hjl).
    assert (Hjp : 0 < j).
    { destruct (Z.eq_dec j 0) as [->|]; [|lia]. exfalso. destruct D as [d|]; [|specialize (HN eq_refl); change (2 ^ 0) with 1 in HN; lia].
      destruct Hpd as (E1 & E2 & E3 & _). change (before 0) with 0%nat in *. apply nil_length_inv in E1, E2, E3. unfold trip in HD. rewrite E1, E2, E3 in HD. done. }
    destruct (Hj1 Hjp) as (h' & -> & Hlh). exists st, (j - 1), D, h'. split_and!; [lia|done| |destruct Hjl; [lia|done]|].
    - unfold zlen. rewrite Hlh. unfold before. destruct (Z.eqb_spec j 0); [lia|]. rewrite Z2Nat.id; [done|]. apply Z.pow_nonneg. lia.
    - replace (j - 1 + 1) with j by lia. done.
  Qed.

  (** the outcomes with return_details *)
  Lemma details_outcome o : 1 <= max_iters -> rcan (cftp_draw c true) o ->
    exists D j, 0 <= j /\ o = Ok (RetDetails D (2 ^ j)) /\ 2 ^ j <= max_iters /\ (D = None -> max_iters < 2 ^ (j + 1)).
  Proof.
    intros Hm Ho. unfold cftp_draw in Ho. rewrite (sample_unfold Wpos Wneg pos neg weight max_iters w c Hdom Hinit) in Ho.
    apply rcan_bind in Ho as [([r st'] & Hr & Ho)|(e & Hr & ->)]; (apply rcan_bind in Hr as [([r0 st0] & Hr & Hr')|(e' & He & Ee)]).
    - apply (loop_outcome _ Hm) in Hr as (st & j & D & h & Hj & [= -> ->] & Hh & Hle & HN). simpl in Hr'. injection Hr' as -> ->. simpl in Ho. subst o.
      exists D, j. rewrite Hh. done.
    - apply (loop_outcome _ Hm) in He as (st & j & D & h & _ & ? & _). done.
    - apply (loop_outcome _ Hm) in Hr as (st & j & D & h & Hj & [= -> ->] & _). done.
    - apply (loop_outcome _ Hm) in He as (st & j & D & h & _ & ? & _). done.
  Qed.

  (** from the loop to what is returned *)
  Lemma draw_details f F v : 1 <= max_iters ->
    (forall D h st, F (Ok (Some (D, Some h), st)) = f (Ok (RetDetails D (zlen h)))) ->
    hexpect F (sample_loop (Z.to_nat max_iters + 2) c 0 None cstate_empty) v -> hexpect f (cftp_draw c true) v.
  Proof.
    intros Hm HF HE. unfold cftp_draw. rewrite (sample_unfold Wpos Wneg pos neg weight max_iters w c Hdom Hinit).
    set (g := fun o : result (sample_ret * cstate) => match o with Ok (r, _) => f (Ok r) | Err e => f (Err e) end).
    apply (hbind _ _ _ g); [|by intros [r st'] _; constructor|done].
    apply (hbind _ _ _ F); [exact HE| |].
    - intros [r st'] Hr. apply (loop_outcome _ Hm) in Hr as (st & j & D & h & Hj & [= -> ->] & _). cbn [rrbind]. rewrite HF.
      apply (HRet g (RetDetails D (zlen h), cstate_empty)).
    - intros e He. apply (loop_outcome _ Hm) in He as (st & j & D & h & _ & ? & _). done.
  Qed.

  (** a pair within 2^j steps *)
  Definition within (j : Z) (G : Z * Z -> R) (o : result sample_ret) : R :=
    match o with Ok (RetDetails (Some d) n) => if n <=? 2 ^ j then G d else 0%R | _ => 0%R end.

  Lemma within_expect j G : 0 <= j -> 2 ^ j <= max_iters ->
    hexpect (within j G) (cftp_draw c true) (L (Z.to_nat (2 ^ j)) (fun s => match s with Some d => G d | None => 0%R end)).
  Proof.
    intros Hj Hjm. pose proof (Z.pow_pos_nonneg 2 j ltac:(lia) Hj) as Hp.
    set (F := fun o : result (option (option (Z * Z) * option (list hentry)) * cstate) =>
      match o with Ok (Some (D, Some h), _) => within j G (Ok (RetDetails D (zlen h))) | _ => 0%R end).
    apply (draw_details _ F); [lia|done|]. rewrite (the_c Wpos Wneg pos neg weight max_iters w c Hdom Hinit).
    pose proof (loop_early Wpos Wneg pos neg weight max_iters _ _ w (dom1 _ _ _ _ _ _ Hdom) (dom2 _ _ _ _ _ _ Hdom) (dom3 _ _ _ _ _ _ Hdom) HSp HSn
      j G F Hj Hjm ltac:(done) ltac:(by intros [h|]) (Z.to_nat max_iters + 2) 0 None cstate_empty) as H.
    change (before 0) with 0%nat in H. rewrite Nat.sub_0_r in H. destruct (Z.leb_spec 0 j); [|lia]. apply H; try done; try lia. by left.
  Qed.

  (** a pair after exactly 2^j steps *)
  Definition exactly (j : Z) (G : Z * Z -> R) (o : result sample_ret) : R :=
    match o with Ok (RetDetails (Some d) n) => if n =? 2 ^ j then G d else 0%R | _ => 0%R end.

  Notation q := (accept_mass Wpos Wneg pos neg w).

  Lemma exactly_expect j G : 0 <= j -> 2 ^ j <= max_iters ->
    hexpect (exactly j G) (cftp_draw c true) (needs q j * S2 pos neg (fun d => W w d / IZR (total_weight w pos neg) * G d))%R.
  Proof.
    intros Hj Hjm. pose proof (within_expect j G Hj Hjm) as E. unfold PCftp.Law in E. rewrite acc_mass, total_S2, Rmult_0_r, Rplus_0_l in E.
    assert (Hscal : forall a, S2 pos neg (fun c => a * (W w c / IZR (total_weight w pos neg)) * G c)%R = (a * S2 pos neg (fun d => W w d / IZR (total_weight w pos neg) * G d))%R).
    { intros a. rewrite <- S2_scal. apply S2_ext. intros. ring. }
    rewrite Hscal in E. unfold needs. destruct (Z.eqb_spec j 0) as [->|Hj1].
    - rewrite pow_O. apply (hexpect_ext _ (within 0 G)); [|exact E].
      intros o Ho. apply details_outcome in Ho as (D & i & Hi & -> & _); [|change (2 ^ 0) with 1 in Hjm; lia].
      destruct D as [d|]; [|done]. cbn [exactly within]. change (2 ^ 0) with 1. destruct (Z.eqb_spec (2 ^ i) 1) as [->|Hn]; [done|].
      destruct (Z.leb_spec (2 ^ i) 1); [|done]. pose proof (Z.pow_pos_nonneg 2 i ltac:(lia) Hi). lia.
    - assert (Hle : 2 ^ (j - 1) < 2 ^ j) by (apply Z.pow_lt_mono_r; lia).
      pose proof (within_expect (j - 1) G ltac:(lia) ltac:(lia)) as E'. unfold PCftp.Law in E'. rewrite acc_mass, total_S2, Rmult_0_r, Rplus_0_l in E'. rewrite Hscal in E'.
      pose proof (hexpect_minus _ _ _ _ _ E E') as E2.
      match type of E2 with hexpect _ _ ?v => match goal with |- hexpect _ _ ?u => replace u with v by ring end end.
      eapply hexpect_ext; [|exact E2]. intros o Ho. apply details_outcome in Ho as (D & i & Hi & -> & _); [|pose proof (Z.pow_pos_nonneg 2 j); lia].
      destruct D as [d|]; [|cbn; ring]. cbn [exactly within]. destruct (Z.eqb_spec (2 ^ i) (2 ^ j)) as [E3|Hn].
      + rewrite E3. destruct (Z.leb_spec (2 ^ j) (2 ^ j)); [|lia]. destruct (Z.leb_spec (2 ^ j) (2 ^ (j - 1))); [lia|]. ring.
      + destruct (Z_lt_le_dec i j) as [Hij|Hij].
        * pose proof (Z.pow_le_mono_r 2 i (j - 1) ltac:(lia) ltac:(lia)). destruct (Z.leb_spec (2 ^ i) (2 ^ j)); [|lia]. destruct (Z.leb_spec (2 ^ i) (2 ^ (j - 1))); [|lia]. ring.
        * pose proof (Z.pow_le_mono_r 2 j i ltac:(lia) Hij). destruct (Z.leb_spec (2 ^ i) (2 ^ j)); [lia|]. destruct (Z.leb_spec (2 ^ i) (2 ^ (j - 1))); [lia|]. ring.
  Qed.

  (** no pair at all *)
  Lemma failed_expect k : 0 <= k -> 2 ^ k <= max_iters < 2 ^ (k + 1) ->
    hprob (cftp_draw c true) (Ok (RetDetails None (2 ^ k))) ((1 - q) ^ Z.to_nat (2 ^ k)).
  Proof.
    intros Hk Hm. pose proof (horizon_pow max_iters k Hk Hm) as HN. pose proof (Z.pow_pos_nonneg 2 k ltac:(lia) Hk) as Hp. unfold hprob.
    set (f := fun o : result sample_ret => _).
    set (F := fun o : result (option (option (Z * Z) * option (list hentry)) * cstate) =>
      match o with Ok (Some (D, Some h), _) => f (Ok (RetDetails D (zlen h))) | _ => 0%R end).
    apply (draw_details _ F); [lia|done|].
    set (f' := fun o : result (option (option (Z * Z) * option (list hentry)) * cstate) =>
      match o with Ok (Some (None, _), _) => 1%R | _ => 0%R end).
    apply (hexpect_ext _ f').
    - intros o Ho. apply loop_outcome in Ho as (st & j & D & h & Hj & -> & Hh & Hle & Hno); [|lia]. cbn [F f']. destruct D as [d|].
      + unfold f. by rewrite decide_False.
      + assert (j = k) as ->.
        { specialize (Hno eq_refl). destruct (Z_lt_le_dec j k); [pose proof (Z.pow_le_mono_r 2 (j + 1) k ltac:(lia) ltac:(lia)); lia|].
          destruct (Z_lt_le_dec k j); [pose proof (Z.pow_le_mono_r 2 (k + 1) j ltac:(lia) ltac:(lia)); lia|lia]. }
        unfold f. by rewrite Hh, decide_True.
    - rewrite (the_c Wpos Wneg pos neg weight max_iters w c Hdom Hinit).
      pose proof (loop_expect Wpos Wneg pos neg weight max_iters _ _ w (dom1 _ _ _ _ _ _ Hdom) (dom2 _ _ _ _ _ _ Hdom) (dom3 _ _ _ _ _ _ Hdom) HSp HSn
        (2 ^ k) (fun s => match s with None => 1%R | _ => 0%R end) f' HN ltac:(by intros [d|]) (Z.to_nat max_iters + 2) 0 None cstate_empty) as H.
      change (before 0) with 0%nat in H. rewrite Nat.sub_0_r in H. unfold PCftp.Law in H. rewrite acc_mass in H. unfold trip in H. cbn in H.
      rewrite (S2_ext pos neg _ (fun _ => 0 * 0)%R), S2_scal, Rmult_0_l, Rplus_0_r, Rmult_1_r in H by (intros; ring).
      apply H; try done; lia.
  Qed.
End draw.

(** the indicator of one pair *)
Lemma pair_share (w : Z -> Z -> Z) pos neg p n : NoDup pos -> NoDup neg -> p ∈ pos -> n ∈ neg ->
  S2 pos neg (fun d => W w d / IZR (total_weight w pos neg) * (if decide (d = (p, n)) then 1 else 0))%R = (IZR (w p n) / IZR (total_weight w pos neg))%R.
Proof.
  intros Hnp Hnn Hp Hn. unfold S2.
  rewrite (rsum_map_ext _ (fun p' => (IZR (w p' n) / IZR (total_weight w pos neg)) * (if decide (p' = p) then 1 else 0))%R).
  - by rewrite (rsum_indicator (fun p' => IZR (w p' n) / IZR (total_weight w pos neg))%R pos p).
  - intros p' Hp'. destruct (decide (p' = p)) as [->|Hne].
    + rewrite Rmult_1_r. rewrite (rsum_map_ext _ (fun n' => (IZR (w p n') / IZR (total_weight w pos neg)) * (if decide (n' = n) then 1 else 0))%R).
      * by rewrite (rsum_indicator (fun n' => IZR (w p n') / IZR (total_weight w pos neg))%R neg n).
      * intros n' _. unfold W. simpl. f_equal. destruct (decide (n' = n)) as [->|]; [by rewrite decide_True|]. rewrite decide_False; [done|]. congruence.
    + rewrite Rmult_0_r. apply rsum_zero. intros n' _. rewrite decide_False; [ring|]. congruence.
Qed.

Lemma C85_iterations_proof : forall (Wpos Wneg : gmap Z R) (pos neg : list Z) (weight : Z -> Z -> result Z) (w : Z -> Z -> Z) (max_iters : Z) (c : cftp),
  dominated Wpos Wneg pos neg weight w -> cftp_init Wpos Wneg pos neg weight max_iters = Ok c ->
  NoDup pos -> NoDup neg -> 1 <= max_iters ->
  let q := accept_mass Wpos Wneg pos neg w in
  ((0 < pmass Wpos pos)%R -> (0 < pmass Wneg neg)%R ->
     (forall o, rcan (cftp_draw c true) o -> exists D j, 0 <= j /\ o = Ok (RetDetails D (2 ^ j)) /\ 2 ^ j <= max_iters /\ (D = None -> max_iters < 2 ^ (j + 1))) /\
     (forall j p n, 0 <= j -> 2 ^ j <= max_iters -> p ∈ pos -> n ∈ neg ->
        hprob (cftp_draw c true) (Ok (RetDetails (Some (p, n)) (2 ^ j))) (IZR (w p n) / IZR (total_weight w pos neg) * needs q j)) /\
     (forall k, 0 <= k -> 2 ^ k <= max_iters < 2 ^ (k + 1) ->
        hprob (cftp_draw c true) (Ok (RetDetails None (2 ^ k))) ((1 - q) ^ Z.to_nat (2 ^ k)))) /\
  ((pmass Wpos pos = 0 \/ pmass Wneg neg = 0)%R -> forall o, rcan (cftp_draw c true) o <-> o = Ok (RetPair None)).
Proof.
  intros Wpos Wneg pos neg weight w max_iters c Hdom Hinit Hnp Hnn Hm q. split.
  - intros HSp HSn. split_and!.
    + intros o. by apply (details_outcome Wpos Wneg pos neg weight max_iters w c Hdom Hinit HSp HSn).
    + intros j p n Hj Hjm Hp Hn.
      pose proof (exactly_expect Wpos Wneg pos neg weight max_iters w c Hdom Hinit HSp HSn j (fun d => if decide (d = (p, n)) then 1%R else 0%R) Hj Hjm) as E.
      cbn beta in E. rewrite pair_share, Rmult_comm in E by done. unfold hprob. eapply hexpect_ext; [|exact E].
      intros o Ho. apply (details_outcome Wpos Wneg pos neg weight max_iters w c Hdom Hinit HSp HSn _ Hm) in Ho as (D & i & Hi & -> & _).
      destruct D as [d|]; [|by rewrite decide_False]. cbn [exactly]. destruct (Z.eqb_spec (2 ^ i) (2 ^ j)) as [->|Hne].
      * destruct (decide (d = (p, n))) as [->|Hd]; [by rewrite decide_True|]. rewrite decide_False; [done|]. congruence.
      * rewrite decide_False; [done|]. congruence.
    + intros k Hk Hkm. by apply (failed_expect Wpos Wneg pos neg weight max_iters w c Hdom Hinit HSp HSn).
  - intros Hz o. unfold cftp_draw. rewrite (sample_unfold Wpos Wneg pos neg weight max_iters w c Hdom Hinit).
    destruct (fuel2 max_iters) as [f ->]. rewrite (zero_loop Wpos Wneg pos neg weight max_iters w c Hdom Hinit) by (done || change (2 ^ 0) with 1; lia). done.
Qed.


(** the pair does not depend on return_details *)
Lemma details_pair (c : cftp) D n : rcan (cftp_draw c true) (Ok (RetDetails D n)) -> rcan (cftp_draw c false) (Ok (RetPair D)).
Proof.
  unfold cftp_draw, cftp_sample. intros H. apply rcan_bind in H as [([r st] & H & Hr)|(e & _ & ?)]; [|done]. simpl in Hr. injection Hr as <-.
  apply rcan_bind in H as [([r' st'] & H & Hr)|(e & _ & ?)]; [|done].
  destruct r' as [[D' [h|]]|]; simpl in Hr; try done. injection Hr as -> -> _.
  apply rcan_bind. left. exists (RetPair D', cstate_empty). split; [|done]. apply rcan_bind. left. eexists. split; [exact H|done].
Qed.

(** how many steps are looked back, whatever the pair *)
Lemma details_gen (N : nat) (HN : Z.of_nat N = 2 ^ 10) : forall (ord : gset Z -> list Z) (prune : bool) (alpha : Qc) (pd : proposal)
    (cache : option (list (gset Z) * list (list Z))) (X : csr) (y : list Z) (s : cds),
  set_order ord -> cds_fit ord prune alpha pd cache X y = Ok s -> fitted_rows X y s ->
  let total := total_discrim (zlen (cds_space s)) (cds_rows s) y in
  let bound := proposal_total pd (zlen (cds_space s)) (cds_rows s) y in
  let q := (IZR total / bound)%R in
  (bound = 0%R -> forall o, rcan (cds_sample_details ord s) o <-> o = Err TypeError) /\
  (bound <> 0%R -> (forall o, rcan (cds_sample_details ord s) o -> o = Ok None \/ exists k j, o = Ok (Some (k, 2 ^ j)) /\ 0 <= j <= 10 /\ 0 < discrim (cds_rows s) y k) /\
     (forall k j, 0 <= j <= 10 -> hprob (cds_sample_details ord s) (Ok (Some (k, 2 ^ j))) (IZR (discrim (cds_rows s) y k) / IZR total * needs q j)) /\
     hprob (cds_sample_details ord s) (Ok None) ((1 - q) ^ N)).
Proof.
  intros ord prune alpha pd cache X y s Ho Hfit Hf total bound q.
  destruct (cds_fit_inv _ _ _ _ _ _ _ _ Hfit Hf) as (HW & Ep & En & Ei & Hdom & Hl). destruct Hf as (Hf1 & Hf2 & Hs).
  assert (Htot : total = total_weight (pw (cds_rows s)) (pos_indices y) (neg_indices y)) by (by apply (total_discrim_eq (cds_space s))).
  pose proof (proposal_mass pd (cds_space s) (cds_rows s) y (cds_weights s) Hl HW) as Hpm. fold bound in Hpm.
  pose proof (NoDup_sel (fun v => 0 <? v) y) as Hndp. rewrite <- pos_sel in Hndp. pose proof (NoDup_sel (fun v => v =? 0) y) as Hndn. rewrite <- neg_sel in Hndn.
  destruct (C85_iterations_proof _ _ _ _ _ _ _ _ Hdom Ei Hndp Hndn ltac:(lia)) as [Hpos Hzero].
  set (M := cds_weights s) in *. pose proof (pmass_nonneg_pos _ _ _ _ _ _ Hdom) as Hmp. pose proof (pmass_nonneg_neg _ _ _ _ _ _ Hdom) as Hmn.
  split.
  - intros Hb. assert (Hz : (pmass M (pos_indices y) = 0 \/ pmass M (neg_indices y) = 0)%R).
    { rewrite Hb in Hpm. by apply Rmult_integral in Hpm. }
    specialize (Hzero Hz). intros o. unfold cds_sample_details. split.
    + intros Hc. apply rcan_bind in Hc as [(r & Hr & Hc)|(e & He & ->)]; [apply Hzero in Hr as [= ->]; exact Hc|]. by apply Hzero in He.
    + intros ->. apply rcan_bind. left. exists (RetPair None). split; [by apply Hzero|done].
  - intros Hb.
    assert (Hsp : (0 < pmass M (pos_indices y))%R). { destruct (Req_dec (pmass M (pos_indices y)) 0) as [E|]; [|lra]. exfalso. apply Hb. rewrite <- Hpm, E. ring. }
    assert (Hsn : (0 < pmass M (neg_indices y))%R). { destruct (Req_dec (pmass M (neg_indices y)) 0) as [E|]; [|lra]. exfalso. apply Hb. rewrite <- Hpm, E. ring. }
    destruct (Hpos Hsp Hsn) as (Hout & _ & Hfail).
    assert (Hq : q = accept_mass M M (pos_indices y) (neg_indices y) (pw (cds_rows s))).
    { unfold q, accept_mass. rewrite <- Htot, Hpm. done. }
    rewrite <- Hq in Hfail.
    (* the pair behind an outcome *)
    assert (Huse : forall p n v, rcan (cftp_draw (cds_cftp s) true) (Ok (RetDetails (Some (p, n)) v)) -> p ∈ pos_indices y /\ n ∈ neg_indices y /\ 0 < pw (cds_rows s) p n).
    { intros p n v Hr. apply details_pair, (C32_usable_pair_proof _ _ _ _ _ _ _ _ _ Hdom Ei) in Hr as [?|(p' & n' & [= <- <-] & ?)]; done. }
    (* sampling from a pair *)
    set (D := fun c : Z * Z => py_set (row_of (cds_rows s) c.1) ∖ py_set (row_of (cds_rows s) c.2)).
    assert (Hrows : forall p n, p ∈ pos_indices y -> n ∈ neg_indices y ->
      py_index (cds_rows s) p = Ok (row_of (cds_rows s) p) /\ py_index (cds_rows s) n = Ok (row_of (cds_rows s) n)).
    { intros p n Hp Hn. split; [apply (row_of_ok _ _ (pos_range (cds_rows s) y Hl p Hp))|apply (row_of_ok _ _ (neg_range (cds_rows s) y Hl n Hn))]. }
    assert (Hne : forall p n, 0 < pw (cds_rows s) p n -> ord (D (p, n)) <> []).
    { intros p n Hw. apply ord_diff_ne; [done|]. unfold pw in Hw. unfold D. cbn [fst snd]. lia. }
    assert (Hchoice : forall p n v k, 0 < pw (cds_rows s) p n ->
      hexpect (fun o : result (option (Z * Z)) => if decide (o = Ok (Some (k, v))) then 1%R else 0%R) (let* k := py_choice (ord (D (p, n))) in RRet (Some (k, v))) (hit (cds_rows s) k p n / W (pw (cds_rows s)) (p, n))).
    { intros p n v k Hw. set (f := fun o : result Z => if decide (o = Ok k) then 1%R else 0%R).
      apply (hbind _ _ _ f).
      - replace (W (pw (cds_rows s)) (p, n)) with (IZR (zlen (ord (D (p, n))))).
        2:{ unfold W, pw, D. simpl. unfold zlen. by rewrite (Permutation_length (Ho _)). }
        replace (hit (cds_rows s) k p n) with (rsum (map (fun k' => f (Ok k')) (ord (D (p, n))))); [apply (py_choice_expect (ord (D (p, n))) f); by apply Hne|].
        assert (HndS : NoDup (ord (D (p, n)))) by (rewrite (Ho _); apply NoDup_elements).
        unfold hit. change (py_set (row_of (cds_rows s) p) ∖ py_set (row_of (cds_rows s) n)) with (D (p, n)). destruct (decide (k ∈ D (p, n))) as [Hk|Hk].
        + rewrite (rsum_map_ext _ (fun k' => 1 * (if decide (k' = k) then 1 else 0))%R).
          * apply (rsum_indicator (fun _ => 1%R)); [done|]. rewrite (Ho _). by apply elem_of_elements.
          * intros k' _. unfold f. rewrite Rmult_1_l. destruct (decide (k' = k)) as [->|]; [by rewrite decide_True|]. rewrite decide_False; [done|]. congruence.
        + apply rsum_zero. intros k' Hk'. unfold f. rewrite decide_False; [done|]. intros [= ->]. apply Hk. rewrite (Ho _) in Hk'. by apply elem_of_elements.
      - intros k' _. assert (E : f (Ok k') = (if decide (Ok (Some (k', v)) = Ok (Some (k, v))) then 1%R else 0%R)).
        { unfold f. destruct (decide (k' = k)) as [->|]; [by rewrite !decide_True|]. rewrite !decide_False; congruence. }
        rewrite E. apply (HRet (fun o : result (option (Z * Z)) => if decide (o = Ok (Some (k, v))) then 1%R else 0%R)).
      - intros e _. unfold f. by rewrite !decide_False. }
    split_and!.
    + intros o Hc. unfold cds_sample_details in Hc. apply rcan_bind in Hc as [(r & Hr & Hc)|(e & He & ->)].
      2:{ apply Hout in He as (? & ? & _ & ? & _). done. }
      destruct (Hout _ Hr) as (D0 & j & Hj & [= ->] & Hj1 & _). destruct D0 as [[p n]|]; [|by left]. right.
      destruct (Huse _ _ _ Hr) as (Hp & Hn & Hw). destruct (Hrows p n Hp Hn) as [E1 E2]. rewrite E1, E2 in Hc. cbn [rlift rrbind] in Hc.
      apply rcan_bind in Hc as [(k & Hk & Hc)|(e & He & ->)].
      2:{ apply (rcan_py_choice _ _ (Hne p n Hw)) in He as (? & _ & ?). done. }
      apply (rcan_py_choice _ _ (Hne p n Hw)) in Hk as (k' & Hk & [= ->]). simpl in Hc. subst o. exists k', j. split; [done|].
      split. { split; [done|]. destruct (Z_lt_le_dec 10 j); [|done]. exfalso. pose proof (Z.pow_lt_mono_r 2 10 j ltac:(lia) ltac:(lia) ltac:(done)) as Hc. change (2 ^ 10) with 1024 in Hc. lia. }
      rewrite (Ho _), elem_of_elements in Hk. unfold D, py_set in Hk. cbn [fst snd] in Hk.
      apply (discrim_pos (cds_rows s) y Hl). exists p, n. set_solver.
    + intros k j Hj. assert (Hjm : 2 ^ j <= 1024) by (change 1024 with (2 ^ 10); apply Z.pow_le_mono_r; lia). unfold hprob, cds_sample_details.
      set (G := fun c : Z * Z => (hit (cds_rows s) k c.1 c.2 / W (pw (cds_rows s)) c)%R).
      pose proof (exactly_expect _ _ _ _ _ _ _ _ Hdom Ei Hsp Hsn j G ltac:(lia) Hjm) as E. rewrite <- Hq, <- Htot in E.
      assert (Ev : S2 (pos_indices y) (neg_indices y) (fun d => W (pw (cds_rows s)) d / IZR total * G d)%R = (IZR (discrim (cds_rows s) y k) / IZR total)%R).
      { rewrite discrim_S2 by done. transitivity (S2 (pos_indices y) (neg_indices y) (fun c => hit (cds_rows s) k c.1 c.2) * / IZR total)%R; [|done].
        rewrite <- S2_scal_r. apply S2_ext. intros [p n] _. unfold G. cbn [fst snd].
        destruct (Z.eq_dec (pw (cds_rows s) p n) 0) as [Ez|Ez].
        - assert (hit (cds_rows s) k p n = 0%R) as ->; [|unfold Rdiv; ring]. unfold hit. rewrite decide_False; [done|]. intros Hk. unfold pw in Ez.
          assert (py_set (row_of (cds_rows s) p) ∖ py_set (row_of (cds_rows s) n) <> ∅) as Hx by set_solver. apply size_pos_ne in Hx. lia.
        - assert (Hwn : W (pw (cds_rows s)) (p, n) <> 0%R) by (unfold W; cbn [fst snd]; by apply not_0_IZR).
          transitivity (hit (cds_rows s) k p n * / IZR total * (W (pw (cds_rows s)) (p, n) * / W (pw (cds_rows s)) (p, n)))%R; [unfold Rdiv; ring|]. rewrite Rinv_r by done. ring. }
      rewrite Ev, Rmult_comm in E. apply (hbind _ _ _ (exactly j G)); [exact E| |].
      * intros r Hr. destruct (Hout _ Hr) as (D0 & i & Hi & [= ->] & _). destruct D0 as [[p n]|].
        -- destruct (Huse _ _ _ Hr) as (Hp & Hn & Hw). destruct (Hrows p n Hp Hn) as [E1 E2]. rewrite E1, E2. cbn [rlift rrbind exactly].
           destruct (Z.eqb_spec (2 ^ i) (2 ^ j)) as [->|Hij]; [apply (Hchoice p n (2 ^ j) k Hw)|].
           pose proof (Hchoice p n (2 ^ i) k Hw) as E0. pose proof (hexpect_minus _ _ _ _ _ E0 E0) as E00. rewrite Rminus_diag_eq in E00 by done.
           eapply hexpect_ext; [|exact E00]. intros o Hc. cbn beta. rewrite Rminus_diag_eq by done.
           apply rcan_bind in Hc as [(k' & _ & Hc)|(e & _ & ->)]; [|by rewrite decide_False].
           simpl in Hc. subst o. rewrite decide_False; [done|]. congruence.
        -- cbn [exactly]. rewrite <- (decide_False (P := Ok None = Ok (Some (k, 2 ^ j))) 1%R 0%R) by done.
           apply (HRet (fun o : result (option (Z * Z)) => if decide (o = Ok (Some (k, 2 ^ j))) then 1%R else 0%R)).
      * intros e He. apply Hout in He as (? & ? & _ & ? & _). done.
    + specialize (Hfail 10 ltac:(lia) ltac:(change (2 ^ 10) with 1024; change (2 ^ (10 + 1)) with 2048; lia)). rewrite <- HN, Nat2Z.id in Hfail.
      unfold hprob in *. unfold cds_sample_details. eapply hbind; [exact Hfail| |].
      * intros r Hr. destruct (Hout _ Hr) as (D0 & i & Hi & [= ->] & Hi1 & Hi2). destruct D0 as [[p n]|].
        -- destruct (Huse _ _ _ Hr) as (Hp & Hn & Hw). destruct (Hrows p n Hp Hn) as [E1 E2]. rewrite E1, E2. cbn [rlift rrbind].
           rewrite decide_False by done.
           pose proof (Hchoice p n (2 ^ i) 0 Hw) as E0. pose proof (hexpect_minus _ _ _ _ _ E0 E0) as E00. rewrite Rminus_diag_eq in E00 by done.
           eapply hexpect_ext; [|exact E00]. intros o Hc. cbn beta. rewrite Rminus_diag_eq by done.
           apply rcan_bind in Hc as [(k' & _ & Hc)|(e & _ & ->)]; [|by rewrite decide_False]. simpl in Hc. subst o. by rewrite decide_False.
        -- assert (i = 10) as ->.
           { specialize (Hi2 eq_refl). destruct (Z_lt_le_dec i 10); [pose proof (Z.pow_le_mono_r 2 (i + 1) 10 ltac:(lia) ltac:(lia)) as Hx; change (2 ^ 10) with 1024 in Hx; lia|].
             destruct (Z_lt_le_dec 10 i) as [Hx|]; [|lia]. pose proof (Z.pow_lt_mono_r 2 10 i ltac:(lia) ltac:(lia) Hx) as Hy. change (2 ^ 10) with 1024 in Hy. lia. }
           rewrite HN. rewrite decide_True by done. rewrite <- (decide_True (P := Ok (A := option (Z * Z)) None = Ok None) 1%R 0%R) by done.
           apply (HRet (fun o : result (option (Z * Z)) => if decide (o = Ok None) then 1%R else 0%R)).
      * intros e He. apply Hout in He as (? & ? & _ & ? & _). done.
Qed.

Lemma C85_sampler_proof : forall (ord : gset Z -> list Z) (prune : bool) (alpha : Qc) (pd : proposal)
    (cache : option (list (gset Z) * list (list Z))) (X : csr) (y : list Z) (s : cds),
  set_order ord -> cds_fit ord prune alpha pd cache X y = Ok s -> fitted_rows X y s ->
  let total := total_discrim (zlen (cds_space s)) (cds_rows s) y in
  let bound := proposal_total pd (zlen (cds_space s)) (cds_rows s) y in
  let q := (IZR total / bound)%R in
  (bound = 0%R -> forall o, rcan (cds_sample_details ord s) o <-> o = Err TypeError) /\
  (bound <> 0%R -> (forall o, rcan (cds_sample_details ord s) o -> o = Ok None \/ exists k j, o = Ok (Some (k, 2 ^ j)) /\ 0 <= j <= 10 /\ 0 < discrim (cds_rows s) y k) /\
     (forall k j, 0 <= j <= 10 -> hprob (cds_sample_details ord s) (Ok (Some (k, 2 ^ j))) (IZR (discrim (cds_rows s) y k) / IZR total * needs q j)) /\
     hprob (cds_sample_details ord s) (Ok None) ((1 - q) ^ 1024)).
Proof. apply details_gen. vm_compute. reflexivity. Qed.
