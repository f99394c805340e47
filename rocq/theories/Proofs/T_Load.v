(** Proofs of the property theorems of Properties/P_Load.v. *)
From Coq Require Import Ascii String DecimalString QArith Qcanon Qround.
From stdpp Require Import strings numbers sorting.
From Verif.Model Require Import PyBase Sparse Utils Rand PyState Data Reader Load.
From Verif.Spec Require Import SMatrix SData SReader SLoad.
From Verif.Proofs Require Import PBase PSparse PRand T_Data T_Reader.
Open Scope Z_scope.

Lemma can_attempt {A} (m : rand A) o : can (attempt m) o <-> exists r, can m r /\ o = Ok r.
Proof.
  induction m as [a|e|ps k IH]; simpl.
  - split; [intros ->; eauto|]. by intros (r & -> & ->).
  - split; [intros ->; eauto|]. by intros (r & -> & ->).
  - split.
    + intros (i & p & Hi & Hp & H). apply IH in H as (r & Hr & ->). eauto 8.
    + intros (r & (i & p & Hi & Hp & H) & ->). exists i, p. split_and!; try done. apply IH. eauto.
Qed.

Lemma elem_of_enumerate {A} (l : list A) k (x : A) : (k, x) ∈ enumerate l <-> 0 <= k /\ l !! Z.to_nat k = Some x.
Proof.
  unfold enumerate, py_range. split.
  - intros H. apply elem_of_list_lookup in H as [i Hi]. apply lookup_zip_with_Some in Hi as (a & b & E & Ha & Hb).
    apply lookup_seqZ in Ha as [-> Hlt]. injection E as -> ->. rewrite Z.add_0_l, Nat2Z.id. split; [lia|done].
  - intros [Hk H]. apply elem_of_list_lookup. exists (Z.to_nat k). apply lookup_zip_with_Some. exists k, x.
    split_and!; [done| |done]. apply lookup_seqZ. apply lookup_lt_Some in H. unfold zlen. lia.
Qed.

Lemma lil_stores (M : list (list Z)) (w : Z) : M <> [] -> Forall (fun row => zlen row = w) M -> stores (lil_of_dense M) M w.
Proof.
  intros Hne Hw. rewrite list.Forall_forall in Hw.
  assert (Hcols : match M with row :: _ => zlen row | [] => 0 end = w).
  { destruct M as [|row M]; [done|]. apply Hw. left. }
  assert (H0 : 0 <= w) by (destruct M as [|row M]; [done|]; rewrite <- Hcols; apply zlen_nonneg).
  assert (Hr : lines_in_range w (map (fun row => List.filter (fun e : Z * Z => negb (snd e =? 0)) (enumerate row)) M)).
  { intros l j v Hl He. apply elem_of_map in Hl as (row & -> & Hrow). apply elem_of_lfilter in He as [_ He].
    apply elem_of_enumerate in He as [Hj Hv]. apply lookup_lt_Some in Hv. specialize (Hw row Hrow).
    unfold zlen in Hw. simpl. lia. }
  unfold stores, lil_of_dense. rewrite Hcols. split_and!.
  - by apply of_lines_wf.
  - unfold csr_rows. simpl. unfold zlen. by rewrite map_length.
  - done.
  - intros i j v. simpl. rewrite slot_of_lines by done. split.
    + intros (Hi & l & Hl & Hin). change (map ?f M) with (f <$> M) in Hl. rewrite list_lookup_fmap in Hl.
      destruct (M !! Z.to_nat i) as [row|] eqn:E; [|done]. simpl in Hl. injection Hl as <-.
      apply elem_of_lfilter in Hin as [Hv Hin]. apply elem_of_enumerate in Hin as [Hj Hjv]. simpl in Hv.
      apply negb_true_iff, Z.eqb_neq in Hv. split_and!; [done..|]. eauto.
    + intros (Hv & Hi & Hj & row & Hrow & Hjv). split; [done|].
      exists (List.filter (fun e : Z * Z => negb (snd e =? 0)) (enumerate row)). split.
      * change (map ?f M) with (f <$> M). rewrite list_lookup_fmap, Hrow. done.
      * apply elem_of_lfilter. split; [simpl; apply negb_true_iff, Z.eqb_neq; done|]. apply elem_of_enumerate. done.
Qed.

Lemma lil_rows M : csr_rows (lil_of_dense M) = zlen M.
Proof. unfold lil_of_dense, csr_rows. simpl. unfold zlen. by rewrite map_length. Qed.
Lemma lil_cols M w : M <> [] -> Forall (fun row => zlen row = w) M -> csr_cols (lil_of_dense M) = w.
Proof. intros Hne Hw. by destruct (lil_stores M w Hne Hw) as (_ & _ & H & _). Qed.

Lemma known_entry name n sparse : known name n sparse <-> arff_entry name = Some (n, sparse).
Proof.
  split.
  - by intros [(-> & -> & ->)|[(-> & -> & ->)|[(-> & -> & ->)|[(-> & -> & ->)|(-> & -> & ->)]]]].
  - unfold arff_entry, arff_sets, known. simpl.
    destruct (String.eqb_spec name "mediamill"); [intros E; injection E as <- <-; tauto|].
    destruct (String.eqb_spec name "birds"); [intros E; injection E as <- <-; tauto|].
    destruct (String.eqb_spec name "bookmarks"); [intros E; injection E as <- <-; tauto|].
    destruct (String.eqb_spec name "CAL500"); [intros E; injection E as <- <-; tauto|].
    destruct (String.eqb_spec name "emotions"); [intros E; injection E as <- <-; tauto|]. done.
Qed.

Lemma known_facts name n sparse : known name n sparse -> name <> "toy"%string /\ name <> "genbase"%string /\ lacks "/" name /\ 1 <= n.
Proof.
  intros H. repeat (destruct H as [H|H]); destruct H as (-> & -> & ->); (split_and!; [done|done| |lia]);
    unfold lacks; simpl; intros E; repeat (destruct E as [E|E]; [discriminate|]); done.
Qed.

Lemma load_cases fl open listdir mlrl perm name dir d o :
  can (load_by_name fl open listdir mlrl perm name dir d) o <->
  exists r, can (fetch fl open listdir mlrl name dir) r /\
    o = Ok (match r with
            | Err e => (Err e, d)
            | Ok (trn_X, trn_Y, tst_X, tst_Y, ln, fn) => load perm trn_X trn_Y tst_X tst_Y ln fn d end).
Proof.
  unfold load_by_name. rewrite can_bind. split.
  - intros (a & Ha & Ho). apply can_attempt in Ha as (r & Hr & ->). simpl in Ho. eauto.
  - intros (r & Hr & ->). exists (Ok r). split; [apply can_attempt; eauto|done].
Qed.

Lemma fetch_known fl open listdir mlrl name n sparse dir r : known name n sparse ->
  can (fetch fl open listdir mlrl name dir) r <->
  exists a, can (read_data_arff fl open (listdir (dir +:+ "/" +:+ name)%string) (dir +:+ "/" +:+ name)%string n (Q2Qc (9 # 10)) (Q2Qc (7 # 10)) sparse) a /\
    r = match a with
        | Err e => Err e
        | Ok (X, Y, X', Y', names) => Ok (lil_of_dense X, lil_of_dense Y, lil_of_dense X', lil_of_dense Y', names,
            arange_names (csr_cols (lil_of_dense X)))
        end.
Proof.
  intros Hk. destruct (known_facts _ _ _ Hk) as (Ht & _). apply known_entry in Hk.
  unfold fetch. rewrite decide_False by done. rewrite Hk, can_bind.
  split; intros (a & Ha & H); exists a; (split; [done|]); destruct a as [[[[[X Y] X'] Y'] names]|e]; done.
Qed.

Lemma load_unsplit perm X Y X' Y' ln fn d : ds_split_train d = false ->
  fst (load perm X Y X' Y' ln fn d) = (if decide (shapes_ok X Y X' Y') then Ok tt else Err AssertionError).
Proof.
  intros Hs. destruct (C51_shapes_proof perm d X Y X' Y' ln fn _ Hs (or_introl eq_refl)) as (_ & _ & H1 & H2).
  destruct (decide _) as [H|H]; [by destruct (H1 H)|by apply H2].
Qed.

Lemma nodup_same_length {A} `{EqDecision A} (l k : list A) : NoDup l -> NoDup k -> (forall x, x ∈ l <-> x ∈ k) -> length l = length k.
Proof. intros Hl Hk H. apply Permutation_length. by apply NoDup_Permutation. Qed.

Lemma sorted_values_length (l vs : list Qc) : sorted_values l vs -> zlen vs = zlen (remove_dups l).
Proof.
  intros [Hs Hv]. unfold zlen. f_equal. apply nodup_same_length; [| apply NoDup_remove_dups |].
  - clear Hv. induction Hs as [|x vs Hs IH Hx]; constructor; [|done]. intros Hin. rewrite list.Forall_forall in Hx.
    apply (irreflexivity Qclt x). by apply Hx.
  - intros x. rewrite elem_of_remove_dups. apply Hv.
Qed.

Lemma zlen_concat {A} (ls : list (list A)) : zlen (concat ls) = zsum (map zlen ls).
Proof. induction ls as [|l ls IH]; [done|]. simpl. rewrite zlen_app, IH. done. Qed.

Lemma binarized_width strict p (numeric : list Z) w A D : binarized strict p numeric w A D ->
  zlen D = zlen A /\ Forall (fun row => zlen row = encoded_width numeric w A) D.
Proof.
  intros (vals & Hv & ->). split; [unfold zlen; by rewrite map_length|].
  apply list.Forall_forall. intros r Hr. apply elem_of_map in Hr as (row & -> & _).
  unfold binarized_row, encoded_width. rewrite zlen_app. f_equal.
  - unfold zlen. by rewrite map_length.
  - rewrite zlen_concat, map_map. f_equal. apply map_ext. intros x. unfold one_hot. rewrite <- (sorted_values_length _ _ (Hv x)).
    unfold zlen. by rewrite map_length.
Qed.

(** ** Successful reads give rectangular tables *)
Definition rect {A} (M : list (list A)) : Prop := exists w, Forall (fun row => zlen row = w) M.

Lemma rmap_length {A B} (f : A -> result B) l k : rmap f l = Ok k -> length k = length l.
Proof. intros H%rmap_ok. symmetry. by eapply Forall2_length. Qed.

Lemma rmap_Forall {A B} (f : A -> result B) (P : B -> Prop) l k : rmap f l = Ok k -> (forall x y, x ∈ l -> f x = Ok y -> P y) -> Forall P k.
Proof.
  intros H%rmap_ok HP. induction H as [|x y l k Hxy _ IH]; constructor; [by apply (HP x); [left|]|].
  apply IH. intros x' y' Hx'. apply HP. by right.
Qed.

Lemma setitem_length {A} (l k : list A) i v : py_setitem l i v = Ok k -> length k = length l.
Proof. unfold py_setitem. destruct (_ || _); [done|]. intros E. injection E as <-. apply insert_length. Qed.

Lemma rfold_length {A B} (f : list A -> B -> result (list A)) l : (forall s x s', f s x = Ok s' -> length s' = length s) ->
  forall s s', rfold f s l = Ok s' -> length s' = length s.
Proof.
  intros Hf. induction l as [|x l IH]; intros s s' H; simpl in H; [by injection H as <-|].
  destruct (f s x) as [s1|] eqn:E; [|done]. simpl in H. rewrite (IH _ _ H). by apply (Hf _ x).
Qed.

Lemma slice_length {A} (l : list A) i j n : zlen l = n ->
  zlen (py_slice l i j) = Z.of_nat (Z.to_nat (py_clamp n j - py_clamp n i) `min` (Z.to_nat n - Z.to_nat (py_clamp n i))).
Proof. intros <-. unfold py_slice, zlen. rewrite take_length, drop_length, Nat2Z.id. done. Qed.

Lemma rect_slices {A} (M : list (list A)) n i : Forall (fun row => zlen row = n) M ->
  rect (map (fun row => py_slice row 0 i) M) /\ rect (map (fun row => py_slice row i (zlen row)) M).
Proof.
  intros H. rewrite list.Forall_forall in H. split; eexists; apply list.Forall_forall; intros r Hr;
    apply elem_of_map in Hr as (row & -> & Hrow); pose proof (H row Hrow) as E.
  - by apply slice_length.
  - rewrite E. by apply slice_length.
Qed.

Lemma sparse_rect lines n X Y names : read_sparse lines n = Ok (X, Y, names) -> rect X /\ rect Y.
Proof.
  unfold read_sparse. destruct (read_attrs (drop 2 lines)) as [[attrs rest]|]; [|done]. simpl.
  destruct (rmap _ attrs) as [ns|]; [|done]. simpl. destruct (zlen rest <? 2); [done|].
  destruct (rmap _ (drop 2 rest)) as [A|] eqn:E; [|done]. simpl. intros H. injection H as <- <- _.
  apply (rect_slices A (zlen attrs)). apply (rmap_Forall _ _ _ _ E). intros x y _ Hy. unfold sparse_row in Hy.
  apply rfold_length in Hy.
  - unfold zlen at 1. rewrite Hy, replicate_length. pose proof (zlen_nonneg attrs). lia.
  - intros s el s'. unfold set_entry. destruct (py_split space el) as [|a [|b [|? ?]]]; try done.
    destruct (str_int a); [|done]. simpl. apply setitem_length.
Qed.

Definition same_widths {A B} (M : list (list A)) (N : list (list B)) : Prop := Forall2 (fun r q => length r = length q) M N.
Lemma same_widths_rect {A B} (M : list (list A)) (N : list (list B)) : same_widths M N -> rect N -> rect M.
Proof.
  intros H [w Hw]. exists w. induction H as [|r q M N Hrq _ IH]; [constructor|]. inversion Hw as [|? ? H1 H2]; subst.
  constructor; [unfold zlen; by rewrite Hrq|by apply IH].
Qed.
Lemma same_widths_trans {A B C} (M : list (list A)) (N : list (list B)) (O : list (list C)) : same_widths M N -> same_widths N O -> same_widths M O.
Proof. intros H. revert O. induction H as [|r q M N Hrq _ IH]; intros O HO; inversion HO; subst; constructor; [congruence|by apply IH]. Qed.
Lemma same_widths_refl {A} (M : list (list A)) : same_widths M M.
Proof. induction M; by constructor. Qed.

Lemma column_widths strict p w i D D' : binarize_column strict p w D i = Ok D' -> same_widths D' D.
Proof.
  unfold binarize_column. destruct (column w D i); [|done]. simpl. destruct (np_quantile _ _); [|done]. simpl.
  intros H%rmap_ok. induction H as [|r r' D D' Hr _ IH]; constructor; [|done].
  destruct (py_index r i); [|done]. simpl in Hr. by apply setitem_length in Hr.
Qed.

Lemma columns_widths strict p w l : forall D D', rfold (binarize_column strict p w) D l = Ok D' -> same_widths D' D.
Proof.
  induction l as [|i l IH]; intros D D' H; simpl in H; [injection H as <-; apply same_widths_refl|].
  destruct (binarize_column strict p w D i) as [D1|] eqn:E; [|done]. simpl in H.
  eapply same_widths_trans; [by apply IH|by eapply column_widths].
Qed.

Lemma dummies_length cols cells : length cells = length cols -> zlen (dummies cols cells) = zsum (map (fun c => zlen (categories c)) cols).
Proof.
  unfold dummies. revert cells. induction cols as [|c cols IH]; intros [|x cells] H; try done. simpl. rewrite zlen_app.
  rewrite IH by (simpl in H; lia). f_equal. unfold zlen. by rewrite map_length.
Qed.

Lemma rect_map {A B} (f : A -> B) (M : list (list A)) : rect M -> rect (map (map f) M).
Proof.
  intros [w Hw]. exists w. induction Hw as [|r M Hr _ IH]; simpl; constructor; [|done]. unfold zlen. by rewrite map_length.
Qed.

Lemma binarize_rect strict p num w D L X Y : binarize strict p num w D L = Ok (X, Y) -> rect L -> rect X /\ rect Y.
Proof.
  unfold binarize. destruct (rfold _ D num) as [D1|] eqn:E1; [|done]. simpl.
  destruct (rmap _ _) as [counted|]; [|done]. simpl.
  set (nb := map fst _). set (kp := List.filter _ _).
  destruct (rmap (column w D1) nb) as [cols|] eqn:E2; [|done]. simpl.
  match goal with |- context [rmap ?f D1] => destruct (rmap f D1) as [D2|] eqn:E3; [|done] end. simpl.
  intros H HL. injection H as <- <-. split; [|by apply rect_map]. apply rect_map.
  exists (zlen kp + zsum (map (fun c => zlen (categories c)) cols)). apply (rmap_Forall _ _ _ _ E3).
  intros row y _ Hy. destruct (rmap (py_index row) kp) as [a|] eqn:Ea; [|done]. simpl in Hy.
  destruct (rmap (py_index row) nb) as [b|] eqn:Eb; [|done]. simpl in Hy. injection Hy as <-.
  rewrite zlen_app. f_equal.
  - unfold zlen. by rewrite (rmap_length _ _ _ Ea).
  - apply dummies_length. by rewrite (rmap_length _ _ _ Eb), (rmap_length _ _ _ E2).
Qed.

Lemma assign_row_length n vals row : 0 <= n -> assign_row n vals = Ok row -> zlen row = n.
Proof.
  intros Hn. unfold assign_row. destruct (zlen vals =? n) eqn:E; [intros H; injection H as <-; lia|].
  destruct vals as [|v [|? ?]]; try done. intros H. injection H as <-. unfold zlen. rewrite replicate_length. lia.
Qed.

Lemma dense_rect fl lines n p X Y names : read_dense fl lines n p = Ok (X, Y, names) -> rect X /\ rect Y.
Proof.
  unfold read_dense. destruct (read_attrs (drop 2 lines)) as [[attrs rest]|]; [|done]. simpl.
  destruct (numeric_feats 0 attrs) as [num|]; [|done]. simpl.
  destruct (rmap _ attrs) as [ns|]; [|done]. simpl. destruct (zlen rest <? 2); [done|].
  destruct (rmap _ (drop 2 rest)) as [A|] eqn:E; [|done]. simpl.
  destruct (binarize _ _ _ _ _ _) as [[D L]|] eqn:Eb; [|done]. simpl. intros H. injection H as <- <- _.
  apply (binarize_rect _ _ _ _ _ _ _ _ Eb).
  apply (rect_slices A (zlen attrs)). apply (rmap_Forall _ _ _ _ E). intros x y _ Hy. unfold dense_row in Hy.
  match type of Hy with context [rmap ?f ?l] => destruct (rmap f l) as [vals|]; [|done] end. simpl in Hy. apply assign_row_length in Hy; [done|apply zlen_nonneg].
Qed.

Lemma rect_select {A} (M : list (list A)) idx : rect M -> rect (select M idx).
Proof.
  intros [w Hw]. exists w. rewrite list.Forall_forall in *. intros r Hr. apply Hw. unfold select in Hr.
  apply elem_of_list_omap in Hr as (i & _ & Hi). by apply elem_of_list_lookup_2 in Hi.
Qed.

Lemma lil_cols_of (M N : list (list Z)) : M <> [] -> incl N M -> N <> [] -> rect M -> csr_cols (lil_of_dense N) = csr_cols (lil_of_dense M).
Proof.
  intros HM Hi HN [w Hw]. rewrite (lil_cols M w HM Hw). apply lil_cols; [done|]. rewrite list.Forall_forall in *.
  intros r Hr. apply Hw. apply elem_of_list_In. apply Hi. by apply elem_of_list_In.
Qed.

Lemma select_incl {A} (M : list A) idx : incl (select M idx) M.
Proof.
  intros r Hr. apply elem_of_list_In in Hr. unfold select in Hr. apply elem_of_list_omap in Hr as (i & _ & Hi).
  apply elem_of_list_In. by apply elem_of_list_lookup_2 in Hi.
Qed.

Lemma select_nil {A} idx : select ([] : list A) idx = [].
Proof. unfold select. induction idx as [|i idx IH]; [done|]. exact IH. Qed.

Lemma select_shape (M : list (list Z)) (idx idx' : list Z) : rect M -> length (select M idx) = length idx -> length (select M idx') = length idx' -> length idx = length idx' ->
  csr_cols (lil_of_dense (select M idx)) = csr_cols (lil_of_dense (select M idx')).
Proof.
  intros Hr H1 H2 H. destruct (decide (idx = [])) as [->|Hne].
  - destruct idx'; [done|discriminate].
  - assert (idx' <> []) by (destruct idx', idx; done).
    assert (select M idx <> []) by (destruct (select M idx), idx; done).
    assert (select M idx' <> []) by (destruct (select M idx'), idx'; done).
    assert (M <> []) by (intros ->; by rewrite select_nil in *).
    rewrite (lil_cols_of M (select M idx)), (lil_cols_of M (select M idx')); try done; apply select_incl.
Qed.

Lemma seven_tenths n : 0 <= n ->
  (Qc_of_Z (7 * n / 10) <= Q2Qc (7 # 10) * Qc_of_Z n)%Qc /\ (Q2Qc (7 # 10) * Qc_of_Z n < Qc_of_Z (7 * n / 10 + 1))%Qc.
Proof.
  intros Hn. pose proof (Z.mul_div_le (7 * n) 10 ltac:(lia)) as H1. pose proof (Z.mul_succ_div_gt (7 * n) 10 ltac:(lia)) as H2.
  split.
  - unfold Qcle, Qcmult, Q2Qc, Qc_of_Z. cbn [this]. rewrite !Qred_correct. unfold Qle, Qmult, inject_Z. cbn [Qnum Qden]. lia.
  - unfold Qclt, Qcmult, Q2Qc, Qc_of_Z. cbn [this]. rewrite !Qred_correct. unfold Qlt, Qmult, inject_Z. cbn [Qnum Qden]. lia.
Qed.

Lemma C82_conversion_proof : forall (M : list (list Z)) (w : Z), M <> [] -> Forall (fun row => zlen row = w) M ->
  stores (lil_of_dense M) M w.
Proof. exact lil_stores. Qed.


Lemma C82_toy_proof : forall fl open listdir mlrl perm dir d o,
  can (load_by_name fl open listdir mlrl perm "toy" dir d) o <->
  o = Ok (load perm toy_X toy_Y toy_X toy_Y ["0"; "1"]%string ["0"; "1"; "2"]%string d).
Proof. intros. rewrite load_cases. unfold fetch. rewrite decide_True by done. simpl. split; [by intros (r & -> & ->)|]. intros ->. eauto. Qed.


Lemma C82_genbase_proof : forall fl open listdir mlrl perm dir d o,
  can (load_by_name fl open listdir mlrl perm "genbase" dir d) o <->
  o = Ok (Err (match mlrl (dir +:+ "/genbase")%string "genbase.arff"%string "genbase.xml"%string with Err e => e | Ok _ => TypeError end), d).
Proof.
  intros. rewrite load_cases. unfold fetch. rewrite decide_False by done.
  change (arff_entry "genbase") with (@None (Z * bool)). cbn beta iota. rewrite decide_True by done.
  change (String.append dir (String.append "/" "genbase")) with (dir +:+ "/genbase")%string.
  change (String.append "genbase" ".arff") with "genbase.arff"%string. change (String.append "genbase" ".xml") with "genbase.xml"%string.
  destruct (mlrl _ _ _) as [q|e]; simpl; (split; [by intros (r & -> & ->)|intros ->; eauto]).
Qed.


Lemma C82_mlrl_proof : forall fl open listdir mlrl perm name dir d o,
  name <> "toy"%string -> name <> "genbase"%string -> (forall n sparse, ~ known name n sparse) ->
  let read suffix := mlrl (dir +:+ "/" +:+ name)%string (name +:+ suffix)%string (name +:+ ".xml")%string in
  can (load_by_name fl open listdir mlrl perm name dir d) o <->
  o = Ok (match read "-train.arff"%string, read "-test.arff"%string with
          | Err e, _ => (Err e, d)
          | Ok _, Err e => (Err e, d)
          | Ok (X, Y, _, _), Ok (X', Y', label_names, feature_names) => load perm X Y X' Y' label_names feature_names d
          end).
Proof.
  intros fl open listdir mlrl perm name dir d o Ht Hg Hk read. rewrite load_cases. unfold fetch. rewrite decide_False by done.
  destruct (arff_entry name) as [[n sparse]|] eqn:E; [by apply known_entry, Hk in E|].
  rewrite decide_False by done. unfold read.
  change (String.append name ?s) with (name +:+ s)%string. change (String.append dir (String.append "/" name)) with (dir +:+ "/" +:+ name)%string.
  destruct (mlrl _ (name +:+ "-train.arff")%string _) as [[[[X Y] ?] ?]|e]; simpl; [|split; [by intros (r & -> & ->)|intros ->; eauto]].
  destruct (mlrl _ (name +:+ "-test.arff")%string _) as [[[[X' Y'] ln] fn]|e]; simpl; (split; [by intros (r & -> & ->)|intros ->; eauto]).
Qed.


Lemma C82_prepared_proof : forall fl open listdir mlrl perm name n_labels (sparse : bool) dir d o, known name n_labels sparse ->
  let path := (dir +:+ "/" +:+ name)%string in
  (exists f, f ∈ listdir path /\ exists n, substring n 5 f = "train"%string) ->
  let read suffix := if sparse then read_sparse (open (path +:+ "/" +:+ name +:+ suffix)%string) n_labels
                     else read_dense fl (open (path +:+ "/" +:+ name +:+ suffix)%string) n_labels (Q2Qc (9 # 10)) in
  can (load_by_name fl open listdir mlrl perm name dir d) o <->
  o = Ok (match read "-train.arff"%string, read "-test.arff"%string with
          | Err e, _ => (Err e, d)
          | Ok _, Err e => (Err e, d)
          | Ok (X, Y, _), Ok (X', Y', label_names) =>
              load perm (lil_of_dense X) (lil_of_dense Y) (lil_of_dense X') (lil_of_dense Y') label_names
                (map decimal (seqZ 0 (match X with row :: _ => zlen row | [] => 0 end))) d
          end).
Proof.
  intros fl open listdir mlrl perm name n sparse dir d o Hk path Hf read. rewrite load_cases.
  destruct (known_facts _ _ _ Hk) as (_ & Hg & Hl & _).
  assert (Hp : forall a, can (read_data_arff fl open (listdir path) path n (Q2Qc (9 # 10)) (Q2Qc (7 # 10)) sparse) a <->
    a = match read "-train.arff"%string, read "-test.arff"%string with
        | Err e, _ => Err e | Ok _, Err e => Err e
        | Ok (X, Y, _), Ok (X', Y', names) => Ok (X, Y, X', Y', names) end).
  { intros a. apply C74_prepared_proof; auto. }
  split.
  - intros (r & Hr & ->). apply (fetch_known _ _ _ _ _ _ _ _ _ Hk) in Hr as (a & Ha & ->). apply Hp in Ha. rewrite Ha.
    destruct (read "-train.arff"%string) as [[[X Y] ?]|]; [|done].
    destruct (read "-test.arff"%string) as [[[X' Y'] ?]|]; done.
  - intros ->. eexists. split.
    + apply (fetch_known _ _ _ _ _ _ _ _ _ Hk). eexists. split; [by apply Hp|reflexivity].
    + destruct (read "-train.arff"%string) as [[[X Y] ?]|]; [|done].
      destruct (read "-test.arff"%string) as [[[X' Y'] ?]|]; done.
Qed.


Lemma dense_read_shape fl h1 h2 attrs sep1 sep2 rows n p A : dense_file fl attrs sep1 rows n p A ->
  (forall i, numeric_at attrs i -> i < zlen attrs - n) ->
  exists numeric D L, (forall i, i ∈ numeric <-> numeric_at attrs i) /\
    read_dense fl (dense_lines h1 h2 attrs sep1 sep2 rows) n p = Ok (D, L, last_names attrs n) /\
    binarized false p numeric (zlen attrs - n) A D /\
    L = map (fun row => map trunc (drop (Z.to_nat (zlen attrs - n)) row)) A /\
    D <> [] /\ zlen D = zlen L /\ Forall (fun row => zlen row = encoded_width numeric (zlen attrs - n) A) D /\ Forall (fun row => zlen row = n) L.
Proof.
  intros Hfile Hnum. destruct (C70_dense_proof fl h1 h2 attrs sep1 sep2 rows n p A Hfile) as [_ H].
  destruct (H Hnum) as (numeric & D & Hn & Hb & Hr). clear H.
  exists numeric, D, (map (fun row => map trunc (drop (Z.to_nat (zlen attrs - n)) row)) A).
  destruct (binarized_width _ _ _ _ _ _ Hb) as [HlD Hw]. destruct Hfile as (_ & _ & Hn0 & Hrows & _ & _ & _ & HA).
  split_and!; try done.
  - intros ->. apply Forall2_length in HA. destruct A; [|done]. by destruct rows.
  - rewrite HlD. unfold zlen. by rewrite map_length.
  - apply list.Forall_forall. intros r Hr'. apply elem_of_map in Hr' as (row & -> & Hrow).
    assert (length row = length attrs).
    { apply elem_of_list_lookup in Hrow as [i Hi]. eapply Forall2_lookup_r in HA as (f & _ & Hf); [|done].
      unfold row_values in Hf. destruct (all_ok _) as [vs|]; [|done]. unfold fill in Hf.
      destruct (decide _); [by injection Hf as <-|]. destruct vs as [|v [|? ?]]; try done. injection Hf as <-. by rewrite replicate_length. }
    unfold zlen in *. rewrite map_length, drop_length. lia.
Qed.

Lemma C82_dense_pair_proof : forall fl open listdir mlrl perm name n_labels dir d h1 h2 attrs sep1 sep2 rows A h1' h2' attrs' sep1' sep2' rows' A',
  known name n_labels false -> ds_split_train d = false ->
  let path := (dir +:+ "/" +:+ name)%string in
  (exists f, f ∈ listdir path /\ exists n, substring n 5 f = "train"%string) ->
  open (path +:+ "/" +:+ name +:+ "-train.arff")%string = dense_lines h1 h2 attrs sep1 sep2 rows ->
  open (path +:+ "/" +:+ name +:+ "-test.arff")%string = dense_lines h1' h2' attrs' sep1' sep2' rows' ->
  dense_file fl attrs sep1 rows n_labels (Q2Qc (9 # 10)) A ->
  dense_file fl attrs' sep1' rows' n_labels (Q2Qc (9 # 10)) A' ->
  (forall i, numeric_at attrs i -> i < zlen attrs - n_labels) ->
  (forall i, numeric_at attrs' i -> i < zlen attrs' - n_labels) ->
  exists numeric numeric' X X' D D' L L',
    (forall i, i ∈ numeric <-> numeric_at attrs i) /\ (forall i, i ∈ numeric' <-> numeric_at attrs' i) /\
    let w := zlen attrs - n_labels in let w' := zlen attrs' - n_labels in
    binarized false (Q2Qc (9 # 10)) numeric w A D /\ binarized false (Q2Qc (9 # 10)) numeric' w' A' D' /\
    stores X D (encoded_width numeric w A) /\ stores X' D' (encoded_width numeric' w' A') /\
    stores L (map (fun row => map trunc (drop (Z.to_nat w) row)) A) n_labels /\
    stores L' (map (fun row => map trunc (drop (Z.to_nat w') row)) A') n_labels /\
    exists d', ds_trn d' = Some (X, L) /\ ds_tst d' = Some (X', L') /\
      forall o, can (load_by_name fl open listdir mlrl perm name dir d) o <->
        o = Ok (if decide (encoded_width numeric w A = encoded_width numeric' w' A') then Ok tt else Err AssertionError, d').
Proof.
  intros fl open listdir mlrl perm name n dir d h1 h2 attrs sep1 sep2 rows A h1' h2' attrs' sep1' sep2' rows' A'
    Hk Hs path Hf Ho Ho' Hfile Hfile' Hnum Hnum'.
  destruct (dense_read_shape fl h1 h2 attrs sep1 sep2 rows n _ A Hfile Hnum) as (numeric & D & L & Hn & Hr & Hb & HL & Hne & Hlen & Hw & HwL).
  destruct (dense_read_shape fl h1' h2' attrs' sep1' sep2' rows' n _ A' Hfile' Hnum') as (numeric' & D' & L' & Hn' & Hr' & Hb' & HL' & Hne' & Hlen' & Hw' & HwL').
  assert (L <> []) by (intros ->; by destruct D). assert (L' <> []) by (intros ->; by destruct D').
  exists numeric, numeric', (lil_of_dense D), (lil_of_dense D'), D, D', (lil_of_dense L), (lil_of_dense L').
  cbn zeta. rewrite <- HL, <- HL'. split_and!; try done; try (by apply lil_stores).
  set (fn := map decimal (seqZ 0 (match D with row :: _ => zlen row | [] => 0 end))). set (ln := last_names attrs' n).
  assert (HP : forall o, can (load_by_name fl open listdir mlrl perm name dir d) o <->
    o = Ok (load perm (lil_of_dense D) (lil_of_dense L) (lil_of_dense D') (lil_of_dense L') ln fn d)).
  { intros o. rewrite (C82_prepared_proof fl open listdir mlrl perm name n false dir d o Hk Hf). cbn zeta iota. fold path.
    rewrite Ho, Hr. cbn iota. rewrite Ho', Hr'. done. }
  exists (snd (load perm (lil_of_dense D) (lil_of_dense L) (lil_of_dense D') (lil_of_dense L') ln fn d)).
  destruct (C51_shapes_proof perm d (lil_of_dense D) (lil_of_dense L) (lil_of_dense D') (lil_of_dense L') ln fn _ Hs (or_introl eq_refl)) as (H1 & H2 & H3 & H4).
  split; [done|]. split; [done|]. intros o. rewrite HP.
  assert (E : load perm (lil_of_dense D) (lil_of_dense L) (lil_of_dense D') (lil_of_dense L') ln fn d =
    (if decide (encoded_width numeric (zlen attrs - n) A = encoded_width numeric' (zlen attrs' - n) A') then Ok tt else Err AssertionError,
     snd (load perm (lil_of_dense D) (lil_of_dense L) (lil_of_dense D') (lil_of_dense L') ln fn d))).
  { rewrite (surjective_pairing (load _ _ _ _ _ _ _ _)) at 1. f_equal.
    assert (Hsh : shapes_ok (lil_of_dense D) (lil_of_dense L) (lil_of_dense D') (lil_of_dense L') <->
      encoded_width numeric (zlen attrs - n) A = encoded_width numeric' (zlen attrs' - n) A').
    { unfold shapes_ok. rewrite !lil_rows. rewrite (lil_cols D _ Hne Hw), (lil_cols D' _ Hne' Hw'), (lil_cols L n), (lil_cols L' n) by done. tauto. }
    destruct (decide _) as [He|He]; [by apply H3, Hsh|]. apply H4. intros Hx. by apply He, Hsh. }
  by rewrite <- E.
Qed.


Lemma C82_split_proof : forall fl open listdir mlrl perm name n_labels (sparse : bool) dir d o, known name n_labels sparse ->
  let path := (dir +:+ "/" +:+ name)%string in
  (forall f n, f ∈ listdir path -> substring n 5 f <> "train"%string) ->
  let text := open (path +:+ "/" +:+ name +:+ ".arff")%string in
  let read := if sparse then read_sparse text n_labels else read_dense fl text n_labels (Q2Qc (9 # 10)) in
  (forall e, read = Err e -> can (load_by_name fl open listdir mlrl perm name dir d) o <-> o = Ok (Err e, d)) /\
  (forall X Y names, read = Ok (X, Y, names) -> 2 <= zlen X ->
     let fn := map decimal (seqZ 0 (match X with row :: _ => zlen row | [] => 0 end)) in
     let part (M : list (list Z)) idx := lil_of_dense (select M idx) in
     (can (load_by_name fl open listdir mlrl perm name dir d) o <->
      exists idx, zlen idx = 7 * zlen X / 10 /\ (forall i, i ∈ idx -> 0 <= i < zlen X) /\
        o = Ok (load perm (part X idx) (part Y idx) (part X (mirror (zlen X) idx)) (part Y (mirror (zlen X) idx)) names fn d)) /\
     (ds_split_train d = false -> can (load_by_name fl open listdir mlrl perm name dir d) o -> exists d', o = Ok (Ok tt, d'))).
Proof.
  intros fl open listdir mlrl perm name n sparse dir d o Hk path Hf text read.
  destruct (known_facts _ _ _ Hk) as (_ & _ & Hl & _).
  pose proof (fun a => C74_split_proof fl open (listdir path) dir name n (Q2Qc (9 # 10)) (Q2Qc (7 # 10)) sparse a Hl Hf ltac:(done)) as HS.
  cbn zeta in HS. fold path text read in HS. split.
  - intros e He. rewrite load_cases. split.
    + intros (r & Hr & ->). apply (fetch_known _ _ _ _ _ _ _ _ _ Hk) in Hr as (a & Ha & ->). apply (proj1 (HS a) e He) in Ha. by rewrite Ha.
    + intros ->. exists (Err e). split; [|done]. apply (fetch_known _ _ _ _ _ _ _ _ _ Hk). exists (Err e). split; [|done].
      by apply (proj1 (HS (Err e)) e He).
  - intros X Y names Hr Hn fn part.
    assert (HX : X <> []) by (intros ->; done).
    assert (Hrect : rect X /\ rect Y).
    { unfold read in Hr. destruct sparse; [by eapply sparse_rect|by eapply dense_rect]. }
    assert (HXY : zlen X = zlen Y).
    { unfold read in Hr. destruct sparse; [by eapply sparse_lengths|by eapply dense_lengths]. }
    set (k := 7 * zlen X / 10). assert (Hk0 : 1 <= k) by (apply Z.div_le_lower_bound; lia).
    destruct (seven_tenths (zlen X) ltac:(lia)) as [Hk1 Hk2]. fold k in Hk1, Hk2.
    pose proof (fun a => proj2 (HS a) X Y names k Hr HX ltac:(lia) Hk1 Hk2) as HP. clear HS.
    assert (Hsel : forall (M : list (list Z)) idx, zlen M = zlen X -> (forall i, i ∈ idx -> 0 <= i < zlen X) -> length (select M idx) = length idx).
    { intros M idx HM Hi. apply length_select. by rewrite HM. }
    assert (Hmir : forall idx, (forall i, i ∈ idx -> 0 <= i < zlen X) -> forall i, i ∈ mirror (zlen X) idx -> 0 <= i < zlen X).
    { intros idx Hi i Hin. unfold mirror in Hin. apply elem_of_map in Hin as (j & -> & Hj). specialize (Hi j Hj). lia. }
    assert (Hlm : forall idx, length (mirror (zlen X) idx) = length idx) by (intros idx; unfold mirror; apply map_length).
    assert (Hfn : forall idx, zlen idx = k -> (forall i, i ∈ idx -> 0 <= i < zlen X) -> arange_names (csr_cols (part X idx)) = fn).
    { intros idx Hlen Hi. unfold part. rewrite (lil_cols_of X (select X idx)); try done.
      - apply select_incl.
      - specialize (Hsel X idx eq_refl Hi). destruct (select X idx), idx; try done. change (0 = k) in Hlen. lia.
      - apply Hrect. }
    assert (Hcan : can (load_by_name fl open listdir mlrl perm name dir d) o <->
      exists idx, zlen idx = k /\ (forall i, i ∈ idx -> 0 <= i < zlen X) /\
        o = Ok (load perm (part X idx) (part Y idx) (part X (mirror (zlen X) idx)) (part Y (mirror (zlen X) idx)) names fn d)).
    { rewrite load_cases. split.
      - intros (r & Hr' & ->). apply (fetch_known _ _ _ _ _ _ _ _ _ Hk) in Hr' as (a & Ha & ->).
        apply HP in Ha as (idx & Hlen & Hi & ->). exists idx. split_and!; [done..|]. fold (part X idx). by rewrite Hfn.
      - intros (idx & Hlen & Hi & ->). eexists. split.
        + apply (fetch_known _ _ _ _ _ _ _ _ _ Hk). eexists. split; [apply HP; exists idx; split_and!; [done..|reflexivity]|reflexivity].
        + cbn beta iota. fold (part X idx). by rewrite Hfn. }
    split; [exact Hcan|]. intros Hs (idx & Hlen & Hi & ->)%Hcan.
    match goal with |- context [load ?p ?a ?b ?c ?e ?f ?g d] => exists (snd (load p a b c e f g d)); rewrite (surjective_pairing (load p a b c e f g d)) at 1; rewrite (load_unsplit p a b c e f g d Hs) end.
    rewrite decide_True; [done|]. unfold shapes_ok, part. rewrite !lil_rows.
    destruct Hrect as [HrX HrY].
    pose proof (Hmir idx Hi) as Hi'. specialize (Hlm idx). set (mi := mirror (zlen X) idx) in *.
    pose proof (Hsel X idx eq_refl Hi) as E1. pose proof (Hsel Y idx (eq_sym HXY) Hi) as E2.
    pose proof (Hsel X mi eq_refl Hi') as E3. pose proof (Hsel Y mi (eq_sym HXY) Hi') as E4.
    split_and!; [unfold zlen; by rewrite E1, E2|unfold zlen; unfold zlen in E3, E4; lia|by apply select_shape|by apply select_shape].
Qed.
