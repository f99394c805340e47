(** Proofs of the property theorems of Properties/P_Reader.v. *)
From Coq Require Import Ascii String DecimalString QArith Qcanon Qround.
From stdpp Require Import strings numbers sorting.
From Verif.Model Require Import PyBase Sparse Utils Rand PyState Plot Data Synth Reader.
From Verif.Spec Require Import SData SReader.
From Coq Require Import DecimalPos DecimalZ.
From Verif.Proofs Require Import PBase PRand T_Data T_Plot T_Synth.
Open Scope Z_scope.

(** ** Text *)
Lemma app_cons_s a (s t : string) : (String a s +:+ t = String a (s +:+ t))%string.
Proof. done. Qed.
Lemma app_nil_s (s : string) : (s +:+ "" = s)%string.
Proof. induction s as [|c s IH]; [done|]. rewrite !app_cons_s. by rewrite IH. Qed.
Lemma app_assoc_s (s t u : string) : ((s +:+ t) +:+ u = s +:+ t +:+ u)%string.
Proof. induction s as [|c s IH]; [done|]. rewrite !app_cons_s. by rewrite IH. Qed.
Lemma lacks_nil c : lacks c "".
Proof. intros []. Qed.
Lemma lacks_cons c a s : lacks c (String a s) <-> a <> c /\ lacks c s.
Proof. unfold lacks. cbn. naive_solver. Qed.
Lemma lacks_app c s t : lacks c (s +:+ t) <-> lacks c s /\ lacks c t.
Proof.
  induction s as [|a s IH]. { split; [by split; [apply lacks_nil|]|by intros [_ H]]. }
  rewrite app_cons_s, !lacks_cons, IH. tauto.
Qed.

Lemma split_lacks c s : lacks c s -> py_split c s = [s].
Proof.
  induction s as [|a s IH]; [done|]. intros [H1 H2]%lacks_cons. cbn. destruct (Ascii.eqb_spec a c); [done|]. by rewrite IH.
Qed.
Lemma split_app c s t : lacks c s -> py_split c (s +:+ String c t) = s :: py_split c t.
Proof.
  induction s as [|a s IH]. { intros _. change (py_split c (String c t) = ""%string :: py_split c t). cbn [py_split]. by rewrite Ascii.eqb_refl. }
  intros [H1 H2]%lacks_cons. rewrite app_cons_s. cbn [py_split]. destruct (Ascii.eqb_spec a c); [done|]. by rewrite IH.
Qed.
Lemma split_nonnil c s : py_split c s <> [].
Proof. destruct s as [|a s]; [done|]. cbn. destruct (Ascii.eqb a c); [done|]. by destruct (py_split c s). Qed.
Lemma split_join c l : l <> [] -> Forall (lacks c) l -> py_split c (join (String c "") l) = l.
Proof.
  induction l as [|s l IH]; [done|]. intros _ [H1 H2]%list.Forall_cons. destruct l as [|t l]; [by apply split_lacks|].
  change (py_split c (s +:+ (String c (join (String c "") (t :: l)))) = s :: t :: l). rewrite split_app by done. by rewrite IH.
Qed.
Lemma join_snoc sep l x t : (join sep (l ++ [x]) +:+ t = join sep (l ++ [x +:+ t]))%string.
Proof.
  induction l as [|s l IH]; [done|]. cbn [app]. destruct (l ++ [x]) as [|y m] eqn:E; [by destruct l|].
  destruct (l ++ [(x +:+ t)%string]) as [|y' m'] eqn:E'; [by destruct l|]. cbn [join]. rewrite !app_assoc_s. f_equal. f_equal.
  exact IH.
Qed.
Lemma init_snoc s c : str_init (s +:+ String c "") = s.
Proof.
  induction s as [|a s IH]; [done|]. change (str_init (String a (s +:+ String c "")) = String a s).
  destruct (s +:+ String c "")%string as [|b u] eqn:E; [by destruct s|]. cbn. f_equal. exact IH.
Qed.

(** ** Numbers *)
Lemma lacks_uint c u : (c = " "%char \/ c = ","%char) -> lacks c (NilEmpty.string_of_uint u).
Proof. intros Hc. induction u; cbn; [apply lacks_nil|..]; apply lacks_cons; (split; [by destruct Hc as [-> | ->]|done]). Qed.
Lemma lacks_uint' c u : (c = " "%char \/ c = ","%char) -> lacks c (NilZero.string_of_uint u).
Proof. intros Hc. destruct u; try by apply (lacks_uint c). cbn. apply lacks_cons. split; [by destruct Hc as [-> | ->]|apply lacks_nil]. Qed.
Lemma lacks_decimal c z : (c = " "%char \/ c = ","%char) -> lacks c (decimal z).
Proof.
  intros Hc. unfold decimal. destruct (Z.to_int z) as [u|u]; cbn; [by apply lacks_uint'|]. apply lacks_cons. split; [by destruct Hc as [-> | ->]|by apply lacks_uint'].
Qed.
Lemma str_int_decimal z : str_int (decimal z) = Ok z.
Proof.
  unfold str_int, decimal. rewrite NilZero.isi. { by rewrite DecimalZ.of_to. }
  - destruct z; cbn; [done| |done]. intros [= E]. by apply DecimalPos.Unsigned.to_uint_nonnil in E.
  - destruct z; cbn; [done|done|]. intros [= E]. by apply DecimalPos.Unsigned.to_uint_nonnil in E.
Qed.

(** ** The header *)
Lemma split_attribute nt : attribute_ok nt ->
  py_split space (attribute_line nt) = "@attribute"%string :: fst nt :: py_split space (snd nt +:+ newline).
Proof.
  intros [H1 H2]. unfold attribute_line, space.
  change ("@attribute " +:+ fst nt +:+ " " +:+ snd nt +:+ newline)%string with ("@attribute" +:+ String " " (fst nt +:+ String " " (snd nt +:+ newline)))%string.
  rewrite split_app; [|cbv; intuition discriminate]. by rewrite split_app.
Qed.
Lemma split_not_attribute s : not_attribute s -> head (py_split space s) <> Some "@attribute"%string.
Proof.
  intros [H1 H2] E. assert (G : forall u v, head (py_split space v) = Some u -> v = u \/ exists t, v = (u +:+ String " " t)%string).
  { clear. intros u v. revert u. induction v as [|a v IH]; intros u; cbn. { intros [= <-]. by left. }
    destruct (Ascii.eqb_spec a space) as [->|]. { intros [= <-]. right. by exists v. }
    destruct (py_split space v) as [|t ts] eqn:Et; [by apply split_nonnil in Et|]. intros [= <-].
    destruct (IH t eq_refl) as [->|[w ->]]; [by left|right; by exists w]. }
  apply G in E as [E|[t E]]; [done|]. by apply (H2 t).
Qed.
Lemma attrs_ok attrs sep rest : Forall attribute_ok attrs -> not_attribute sep ->
  read_attrs (map attribute_line attrs ++ sep :: rest) = Ok (map (fun nt => py_split space (attribute_line nt)) attrs, sep :: rest).
Proof.
  intros Ha Hs. induction Ha as [|nt attrs H Ha IH]; cbn [map app read_attrs].
  - rewrite decide_False; [done|]. by apply split_not_attribute.
  - rewrite decide_True; [|by rewrite split_attribute]. rewrite IH. done.
Qed.
Lemma names_ok attrs : Forall attribute_ok attrs ->
  rmap (fun fields => py_index fields 1) (map (fun nt => py_split space (attribute_line nt)) attrs) = Ok (map fst attrs).
Proof.
  intros Ha. induction Ha as [|nt attrs H Ha IH]; [done|]. cbn [map rmap]. rewrite split_attribute by done.
  rewrite (index_at _ 1 1 (fst nt)); [|by left|lia|done].
  cbn [rbind]. rewrite IH. done.
Qed.
Lemma last_names_ok attrs n : 0 <= n <= zlen attrs -> py_slice (map fst attrs) (- n) (zlen (map fst attrs)) = last_names attrs n.
Proof.
  intros Hn. unfold last_names, py_slice. rewrite zlen_map. pose proof (zlen_nonneg attrs).
  destruct (Z.eqb_spec n 0) as [->|].
  - change (- 0) with 0. rewrite !py_clamp_id by lia. change (Z.to_nat 0) with 0%nat. rewrite drop_0. apply take_ge. rewrite map_length. unfold zlen in *. lia.
  - unfold py_clamp. destruct (Z.ltb_spec (- n) 0); [|lia]. destruct (Z.ltb_spec (zlen attrs) 0); [lia|].
    rewrite take_ge; [|rewrite drop_length, map_length; unfold zlen in *; lia]. f_equal. unfold zlen in *. lia.
Qed.

(** ** Sparse rows *)
Lemma set_entry_ok row e : lacks " " (snd e) -> set_entry row (sparse_entry e) = py_setitem row (fst e) 1.
Proof.
  intros H. unfold set_entry, sparse_entry, space. change (decimal (fst e) +:+ " " +:+ snd e)%string with (decimal (fst e) +:+ String " " (snd e))%string.
  rewrite split_app by (apply lacks_decimal; by left). rewrite split_lacks by done. rewrite str_int_decimal. done.
Qed.

Definition setf (n : Z) (es : list (Z * string)) (f : Z -> Z) (c : Z) : Z :=
  if bool_decide (Exists (fun e => fst e = c \/ fst e + n = c) es) then 1 else f c.
Lemma set_fold n es f : 0 <= n -> Forall (fun e => lacks " " (snd e)) es ->
  rfold set_entry (map f (seqZ 0 n)) (map sparse_entry es) =
  if bool_decide (Exists (fun e => fst e < - n \/ n <= fst e) es) then Err IndexError else Ok (map (setf n es f) (seqZ 0 n)).
Proof.
  intros Hn He. revert f. induction He as [|e es H He IH]; intros f; cbn [map rfold].
  - done.
  - rewrite set_entry_ok by done. unfold py_setitem. rewrite zlen_map, zlen_seqZ by done.
    destruct (decide (fst e < - n \/ n <= fst e)) as [Hb|Hb].
    + rewrite bool_decide_eq_true_2 by (by left). destruct (Z.ltb_spec (fst e) 0).
      * destruct (Z.ltb_spec (fst e + n) 0); [done|]. destruct (Z.leb_spec n (fst e + n)); [done|lia].
      * destruct (Z.ltb_spec (fst e) 0); [done|]. destruct (Z.leb_spec n (fst e)); [done|lia].
    + set (j := if fst e <? 0 then fst e + n else fst e). assert (Hjd : fst e < 0 /\ j = fst e + n \/ 0 <= fst e /\ j = fst e). { unfold j. destruct (Z.ltb_spec (fst e) 0); lia. } clearbody j. assert (Hj : 0 <= j < n) by lia.
      destruct (Z.ltb_spec j 0); [lia|]. destruct (Z.leb_spec n j); [lia|]. cbn [orb rbind].
      rewrite map_insert by done. rewrite IH.
      rewrite (bool_decide_ext (Exists (fun e => fst e < - n \/ n <= fst e) (e :: es)) (Exists (fun e => fst e < - n \/ n <= fst e) es))
        by (rewrite Exists_cons; tauto).
      case_bool_decide; [done|]. f_equal. apply map_ext_in. intros c Hc%elem_of_list_In%elem_of_seqZ. unfold setf.
      destruct (decide (Exists (fun e => fst e = c \/ fst e + n = c) es)) as [Hx|Hx].
      { rewrite !bool_decide_eq_true_2; [done|by right|done]. }
      rewrite (bool_decide_eq_false_2 _ Hx). destruct (decide (c = j)) as [->|Hc'].
      * rewrite bool_decide_eq_true_2; [done|]. left. lia.
      * rewrite bool_decide_eq_false_2; [done|]. rewrite Exists_cons. intros [Hy|Hy]; [|done]. apply Hc'. lia.
Qed.
Lemma seqZ_zero n : replicate (Z.to_nat n) 0 = map (fun _ => 0) (seqZ 0 n).
Proof.
  apply list_eq. intros i. rewrite list_lookup_fmap. destruct (decide (i < Z.to_nat n)%nat).
  - rewrite lookup_replicate_2 by done. rewrite (lookup_seqZ_lt _ _ _) by lia. done.
  - rewrite (lookup_ge_None_2 (replicate _ _)) by (rewrite replicate_length; lia). rewrite (lookup_seqZ_ge) by lia. done.
Qed.
Lemma sparse_row_ok n row eol : 0 <= n -> sparse_ok row -> (eol = "" \/ eol = newline)%string ->
  sparse_row n (sparse_line row eol) = match sparse_error n row with Some e => Err e | None => Ok (map (is_set n row) (seqZ 0 n)) end.
Proof.
  intros Hn Hr He. unfold sparse_row.
  assert (Hin : str_inner (sparse_line row eol) = (join "," (map sparse_entry row) +:+ (if decide (eol = "")%string then "" else "}"))%string).
  { unfold sparse_line. change ("{" +:+ ?s)%string with (String "{" s). cbn [str_inner]. destruct He as [-> | ->].
    - rewrite decide_True by done. rewrite !app_nil_s. apply init_snoc.
    - rewrite decide_False by done. rewrite <- app_assoc_s. apply init_snoc. }
  rewrite Hin. clear Hin He. set (t := if decide (eol = "")%string then ""%string else "}"%string).
  assert (Ht : lacks " " t /\ lacks "," t). { unfold t. destruct (decide _); split; cbv; intuition discriminate. }
  clearbody t. clear eol. destruct Ht as [Ht1 Ht2].
  destruct row as [|e0 row0] eqn:Er. { cbn [map join sparse_error]. change ("" +:+ t)%string with t. unfold comma. rewrite split_lacks by done. cbn [rfold]. unfold set_entry, space. rewrite split_lacks by done. done. }
  rewrite <- Er in *. assert (Hne : row <> []) by (by rewrite Er). destruct (exists_last Hne) as (es & e & ->). clear e0 row0 Er.
  apply Forall_app in Hr as [Hr1 [[Hr2 Hr3] _]%list.Forall_cons].
  rewrite map_app. cbn [map]. rewrite join_snoc.
  assert (Ee : (sparse_entry e +:+ t)%string = sparse_entry (fst e, snd e +:+ t)%string). { unfold sparse_entry. cbn [fst snd]. by rewrite !app_assoc_s. }
  rewrite Ee. change [sparse_entry (fst e, snd e +:+ t)%string] with (map sparse_entry [(fst e, snd e +:+ t)%string]). rewrite <- map_app.
  set (es' := es ++ [(fst e, snd e +:+ t)%string]).
  assert (Hes' : sparse_ok es'). { apply Forall_app. split; [done|]. constructor; [|constructor]. cbn [snd]. rewrite !lacks_app. done. }
  unfold comma. rewrite split_join.
  2:{ by destruct es. }
  2:{ apply list.Forall_forall. intros x Hx. apply elem_of_map in Hx as ([i v] & -> & Hx). eapply (proj1 (list.Forall_forall _ _)) in Hes'; [|exact Hx].
      destruct Hes' as [_ Hv]. unfold sparse_entry. cbn [fst snd] in *. rewrite !lacks_app. split_and!; [apply lacks_decimal; by right|cbv; intuition discriminate|done]. }
  rewrite seqZ_zero, set_fold; [|done|eapply list.Forall_impl; [exact Hes'|by intros ? []]].
  assert (Hx : forall P : Z -> Prop, Exists (fun e => P (fst e)) es' <-> Exists (fun e => P (fst e)) (es ++ [e])).
  { intros P. unfold es'. rewrite !Exists_app, !Exists_cons, !Exists_nil. cbn [fst]. done. }
  unfold sparse_error. destruct (es ++ [e]) as [|e1 l1] eqn:El; [by destruct es|]. rewrite <- El in *.
  rewrite (bool_decide_ext _ _ (Hx (fun i => i < - n \/ n <= i))). case_bool_decide; [done|]. f_equal. apply map_ext. intros c. unfold setf, is_set.
  by rewrite (bool_decide_ext _ _ (Hx (fun i => i = c \/ i + n = c))).
Qed.
Lemma rmap_first {A B C} (f : B -> result C) (g : A -> B) (err : A -> option exn) (h : A -> C) l :
  Forall (fun x => f (g x) = match err x with Some e => Err e | None => Ok (h x) end) l ->
  rmap f (map g l) = match first_some err l with Some e => Err e | None => Ok (map h l) end.
Proof.
  induction 1 as [|x l H Hl IH]; [done|]. cbn [map rmap first_some]. rewrite H. destruct (err x); [done|]. cbn [rbind]. rewrite IH.
  by destruct (first_some err l).
Qed.
Lemma slice_left {A} (f : Z -> A) n k : 0 <= k <= n -> py_slice (map f (seqZ 0 n)) 0 k = map f (seqZ 0 k).
Proof.
  intros H. rewrite py_slice_in; [|rewrite ?zlen_map, ?zlen_seqZ; lia..]. change (Z.to_nat 0) with 0%nat. rewrite drop_0. replace n with (k + (n - k)) at 1 by lia. rewrite seqZ_app by lia.
  rewrite map_app, take_app_alt; [done|]. rewrite map_length, seqZ_length. lia.
Qed.
Lemma slice_right {A} (f : Z -> A) n k : 0 <= k <= n -> py_slice (map f (seqZ 0 n)) k (zlen (map f (seqZ 0 n))) = map f (seqZ k (n - k)).
Proof.
  intros H. rewrite zlen_map, zlen_seqZ by lia. rewrite py_slice_in; [|rewrite ?zlen_map, ?zlen_seqZ; lia..].
  replace n with (k + (n - k)) at 2 by lia. rewrite seqZ_app by lia.
  rewrite map_app, drop_app_alt by (rewrite map_length, seqZ_length; lia). rewrite Z.add_0_l. apply take_ge. rewrite map_length, seqZ_length. lia.
Qed.

Lemma C69_sparse_proof : forall h1 h2 attrs sep1 sep2 (rows : list (list (Z * string) * string)) n_labels,
  Forall attribute_ok attrs -> not_attribute sep1 -> 0 <= n_labels <= zlen attrs ->
  Forall (fun re => sparse_ok (fst re) /\ (snd re = "" \/ snd re = newline)%string) rows ->
  read_sparse (h1 :: h2 :: map attribute_line attrs ++ sep1 :: sep2 :: map (fun re => sparse_line (fst re) (snd re)) rows) n_labels =
  match first_some (fun re => sparse_error (zlen attrs) (fst re)) rows with
  | Some e => Err e
  | None => Ok (map (fun re => map (is_set (zlen attrs) (fst re)) (seqZ 0 (zlen attrs - n_labels))) rows,
                map (fun re => map (is_set (zlen attrs) (fst re)) (seqZ (zlen attrs - n_labels) n_labels)) rows,
                last_names attrs n_labels)
  end.
Proof.
  intros h1 h2 attrs sep1 sep2 rows l Ha Hs Hl Hr. unfold read_sparse. cbn [drop]; rewrite ?drop_0. rewrite attrs_ok by done. cbn [rbind].
  rewrite names_ok by done. cbn [rbind]. rewrite last_names_ok by done. rewrite zlen_map. rewrite !zlen_cons.
  pose proof (zlen_nonneg (map (fun re : list (Z * string) * string => sparse_line (fst re) (snd re)) rows)). destruct (Z.ltb_spec (zlen (map (fun re : list (Z * string) * string => sparse_line (fst re) (snd re)) rows) + 1 + 1) 2); [lia|].
  cbn [drop]; rewrite ?drop_0. pose proof (zlen_nonneg attrs).
  rewrite (rmap_first _ _ (fun re => sparse_error (zlen attrs) (fst re)) (fun re => map (is_set (zlen attrs) (fst re)) (seqZ 0 (zlen attrs)))).
  2:{ eapply list.Forall_impl; [exact Hr|]. intros re [Hr1 Hr2]. by apply sparse_row_ok. }
  destruct (first_some _ rows); [done|]. cbn [rbind]. f_equal. f_equal. f_equal.
  - rewrite map_map. apply map_ext. intros re. apply slice_left. lia.
  - rewrite map_map. apply map_ext. intros re. rewrite slice_right by lia. f_equal. f_equal. lia.
Qed.


(** ** Quantiles *)
Lemma sorted_count (P : Qc -> Prop) {HD : forall u, Decision (P u)} (s : list Qc) :
  (forall u v, (u <= v)%Qc -> P v -> P u) -> StronglySorted Qcle s ->
  forall i x, s !! i = Some x -> (P x <-> Z.of_nat i < zlen (filter P s)).
Proof.
  intros HP Hs. induction Hs as [|a s Hs IH Ha]; intros i x Hi; [done|]. destruct (decide (P a)) as [Hp|Hp].
  - rewrite filter_cons_True by done. rewrite zlen_cons. destruct i as [|i]; cbn in Hi.
    + injection Hi as <-. pose proof (zlen_nonneg (filter P s)). split; [lia|done].
    + rewrite (IH i x Hi). lia.
  - rewrite filter_cons_False by done.
    assert (Hall : forall y, y ∈ s -> ~ P y). { intros y Hy Hpy. apply Hp. eapply (proj1 (list.Forall_forall _ _)) in Ha; [|exact Hy]. by eapply HP. }
    assert (filter P s = []) as ->. { destruct (filter P s) as [|z l] eqn:E; [done|]. assert (z ∈ filter P s) as [Hz1 Hz2]%elem_of_list_filter by (rewrite E; left). by apply Hall in Hz2. }
    split; [|intros Hlt; change (Z.of_nat i < 0) in Hlt; lia]. intros Hx. exfalso. destruct i as [|i]; cbn in Hi; [injection Hi as <-; done|].
    apply elem_of_list_lookup_2 in Hi. by apply Hall in Hi.
Qed.
Lemma count_perm (P : Qc -> Prop) {HD : forall u, Decision (P u)} (l l' : list Qc) : l ≡ₚ l' -> zlen (filter P l) = zlen (filter P l').
Proof. intros H. unfold zlen. by rewrite H. Qed.

Lemma floor_ceil (h : Qc) : Qceiling (this h) = if decide (h = Qc_of_Z (Qfloor (this h))) then Qfloor (this h) else Qfloor (this h) + 1.
Proof.
  pose proof (Qfloor_le (this h)) as H1. pose proof (Qlt_floor (this h)) as H2. pose proof (Qle_ceiling (this h)) as H3. pose proof (Qceiling_lt (this h)) as H4.
  set (a := Qfloor (this h)) in *. set (b := Qceiling (this h)) in *.
  assert (a <= b). { rewrite Zle_Qle. by eapply Qle_trans. }
  assert (b <= a + 1). { assert (b - 1 < a + 1); [|lia]. rewrite Zlt_Qlt. eapply Qlt_trans; [exact H4|exact H2]. }
  destruct (decide (h = Qc_of_Z a)) as [E|E].
  - assert (b - 1 < a); [|lia]. rewrite Zlt_Qlt. eapply Qlt_le_trans; [exact H4|]. assert (Qeq (this h) (inject_Z a)) as ->; [|apply Qle_refl].
    rewrite E. reflexivity.
  - destruct (decide (b = a)) as [Eb|]; [|lia]. exfalso. apply E. apply Qc_is_canon. change (Qeq (this h) (inject_Z a)).
    apply Qle_antisym; [|done]. by rewrite <- Eb.
Qed.

Lemma interp_ge (x y f : Qc) : (x <= y)%Qc -> (0 <= f)%Qc -> (x <= x + f * (y - x))%Qc.
Proof.
  intros H1 H2. apply Qcle_minus_iff. replace (x + f * (y - x) + - x)%Qc with (f * (y - x))%Qc by ring. apply Qcmult_nonneg_nonneg; [done|].
  by apply (proj1 (Qcle_minus_iff _ _)) in H1.
Qed.
Lemma interp_lt (x y f v : Qc) : (x < v)%Qc -> (y <= v)%Qc -> (0 <= f)%Qc -> (f < 1)%Qc -> (x + f * (y - x) < v)%Qc.
Proof.
  intros H1 H2 H3 H4. apply Qclt_minus_iff. replace (v + - (x + f * (y - x)))%Qc with ((1 + - f) * (v + - x) + f * (v + - y))%Qc by ring.
  apply (Qclt_minus_iff) in H1, H4. apply (proj1 (Qcle_minus_iff _ _)) in H2.
  eapply Qclt_le_trans; [apply (Qcmult_pos_pos _ _ H4 H1)|]. rewrite <- (Qcplus_0_r ((1 + - f) * (v + - x))) at 1. apply Qcplus_le_mono_l. by apply Qcmult_nonneg_nonneg.
Qed.
Lemma interp_gt (x y f v : Qc) : (v <= x)%Qc -> (v < y)%Qc -> (0 < f)%Qc -> (f < 1)%Qc -> (v < x + f * (y - x))%Qc.
Proof.
  intros H1 H2 H3 H4. apply Qclt_minus_iff. replace (x + f * (y - x) + - v)%Qc with ((1 + - f) * (x + - v) + f * (y + - v))%Qc by ring.
  apply Qclt_minus_iff in H2, H4. apply (proj1 (Qcle_minus_iff _ _)) in H1.
  eapply Qclt_le_trans; [apply (Qcmult_pos_pos _ _ H3 H2)|]. rewrite <- (Qcplus_0_l (f * (y + - v))) at 1. apply Qcplus_le_mono_r.
  apply Qcmult_nonneg_nonneg; [by apply Qclt_le_weak|done].
Qed.
Lemma interp_le (x y f v : Qc) : (x <= v)%Qc -> (y <= v)%Qc -> (0 <= f)%Qc -> (f < 1)%Qc -> (x + f * (y - x) <= v)%Qc.
Proof.
  intros H1 H2 H3 H4. apply Qcle_minus_iff. replace (v + - (x + f * (y - x)))%Qc with ((1 + - f) * (v + - x) + f * (v + - y))%Qc by ring.
  apply Qclt_minus_iff in H4. apply (proj1 (Qcle_minus_iff _ _)) in H1, H2.
  apply Qcplus_nonneg_nonneg; apply Qcmult_nonneg_nonneg; try done. by apply Qclt_le_weak.
Qed.
Lemma sorted_le (s : list Qc) i j x y : StronglySorted Qcle s -> s !! i = Some x -> s !! j = Some y -> (i <= j)%nat -> (x <= y)%Qc.
Proof.
  intros Hs. revert i j x y. induction Hs as [|a s Hs IH Ha]; intros i j x y Hi Hj Hij; [done|]. destruct i as [|i], j as [|j]; cbn in Hi, Hj.
  - injection Hi as <-. injection Hj as <-. done.
  - injection Hi as <-. apply elem_of_list_lookup_2 in Hj. by eapply (proj1 (list.Forall_forall _ _)) in Ha.
  - lia.
  - eapply IH; [done|done|lia].
Qed.

Lemma quantile_ok (xs : list Qc) (p : Qc) : xs <> [] -> (0 <= p)%Qc -> (p <= 1)%Qc ->
  exists q, np_quantile xs p = Ok q /\ forall v, v ∈ xs ->
    ((v <= q)%Qc <-> zlen (filter (fun u => (u < v)%Qc) xs) <= Qfloor (this (Qc_of_Z (zlen xs - 1) * p)%Qc)) /\
    ((v < q)%Qc <-> zlen (filter (fun u => (u <= v)%Qc) xs) <= Qceiling (this (Qc_of_Z (zlen xs - 1) * p)%Qc)).
Proof.
  intros Hne Hp0 Hp1. unfold np_quantile. rewrite !bool_decide_eq_false_2 by (by apply Qcle_not_lt). cbn [orb].
  set (n := zlen xs). set (h := (Qc_of_Z (n - 1) * p)%Qc). set (lo := Qfloor (this h)). set (s := merge_sort Qcle xs).
  assert (Hperm : s ≡ₚ xs) by apply merge_sort_Permutation.
  assert (Hs : StronglySorted Qcle s) by (apply StronglySorted_merge_sort; apply _).
  assert (Hn : 1 <= n). { unfold n, zlen. destruct xs; [done|]. cbn. lia. }
  assert (Hls : Z.of_nat (length s) = n) by (by rewrite Hperm).
  destruct (proj1 (floor_bounds h lo) eq_refl) as [Hf1 Hf2].
  assert (Hh0 : (0 <= h)%Qc). { apply Qcmult_nonneg_nonneg; [apply Qc_of_Z_nonneg; lia|done]. }
  assert (Hh1 : (h <= Qc_of_Z (n - 1))%Qc). { unfold h. rewrite <- (Qcmult_1_r (Qc_of_Z (n - 1))) at 2. apply Qcmult_le_mono_nonneg_l; [apply Qc_of_Z_nonneg; lia|done]. }
  assert (Hlo0 : 0 <= lo). { assert (0 < lo + 1); [|lia]. apply Z2Qc_inj_lt. rewrite Z2Qc_inj_0. by eapply Qcle_lt_trans. }
  assert (Hlo1 : lo <= n - 1). { apply Z2Qc_inj_le. by eapply Qcle_trans. }
  destruct (lookup_lt_is_Some_2 s (Z.to_nat lo)) as [x Hx]; [lia|].
  destruct (lookup_lt_is_Some_2 s (Z.to_nat (Z.min (lo + 1) (n - 1)))) as [y Hy]; [lia|].
  rewrite (index_at s lo lo x); [|by left|done|done]. cbn [rbind]. rewrite (index_at s _ (Z.min (lo + 1) (n - 1)) y); [|by left|lia|done]. cbn [rbind].
  eexists. split; [done|]. set (f := (h - Qc_of_Z lo)%Qc).
  assert (Hf0 : (0 <= f)%Qc) by (by apply (proj1 (Qcle_minus_iff _ _)) in Hf1).
  assert (Hf3 : (f < 1)%Qc). { apply Qclt_minus_iff. apply Qclt_minus_iff in Hf2. rewrite Z2Qc_inj_add, Z2Qc_inj_1 in Hf2. unfold f. by replace (1 + - (h - Qc_of_Z lo))%Qc with (Qc_of_Z lo + 1 + - h)%Qc by ring. }
  assert (Hxy : (x <= y)%Qc) by (eapply sorted_le; [exact Hs|exact Hx|exact Hy|lia]).
  intros v Hv. rewrite <- Hperm in Hv. apply elem_of_list_lookup in Hv as [m Hm]. pose proof (lookup_lt_Some _ _ _ Hm) as Hmn.
  rewrite <- (count_perm (fun u => (u < v)%Qc) _ _ Hperm), <- (count_perm (fun u => (u <= v)%Qc) _ _ Hperm). split.
  - pose proof (sorted_count (fun u => (u < v)%Qc) s ltac:(intros a b H1 H2; by eapply Qcle_lt_trans) Hs) as Hc.
    set (k := zlen (filter (fun u => (u < v)%Qc) s)) in *.
    assert (Hk : k <= Z.of_nat m). { destruct (Z.le_gt_cases k (Z.of_nat m)); [done|]. exfalso. apply (irreflexivity Qclt v). apply (Hc m v Hm). done. }
    split.
    + intros Hle. destruct (Z.le_gt_cases k lo) as [|Hgt]; [done|]. exfalso.
      assert (Hxv : (x < v)%Qc) by (apply (Hc _ _ Hx); lia).
      assert (Hyv : (y <= v)%Qc) by (eapply sorted_le; [exact Hs|exact Hy|exact Hm|lia]).
      eapply Qcle_not_lt; [exact Hle|]. by apply interp_lt.
    + intros Hle. assert (Hxv : (v <= x)%Qc). { apply Qcnot_lt_le. intros Hl. apply (Hc _ _ Hx) in Hl. lia. }
      eapply Qcle_trans; [exact Hxv|]. by apply interp_ge.
  - pose proof (sorted_count (fun u => (u <= v)%Qc) s ltac:(intros a b H1 H2; by eapply Qcle_trans) Hs) as Hc.
    set (k := zlen (filter (fun u => (u <= v)%Qc) s)) in *.
    assert (Hk : Z.of_nat m < k). { by apply (Hc m v Hm). }
    rewrite floor_ceil. fold lo. destruct (decide (h = Qc_of_Z lo)) as [Ei|Ei].
    + assert (f = 0%Qc) as Ef. { unfold f. rewrite Ei. ring. } replace (x + f * (y - x))%Qc with x by (rewrite Ef; ring).
      split.
      * intros Hlt. destruct (Z.le_gt_cases k lo) as [|Hgt]; [done|]. exfalso. apply (Qclt_not_le _ _ Hlt). apply (Hc _ _ Hx). lia.
      * intros Hle. apply Qcnot_le_lt. intros Hl. apply (Hc _ _ Hx) in Hl. lia.
    + assert (Hfp : (0 < f)%Qc). { destruct (Qcle_lt_or_eq _ _ Hf0) as [|E]; [done|]. exfalso. apply Ei. unfold f in E. replace h with (h - Qc_of_Z lo + Qc_of_Z lo)%Qc by ring. rewrite <- E. ring. }
      assert (Hlo2 : lo < n - 1). { destruct (decide (lo = n - 1)) as [E|]; [|lia]. exfalso. apply Ei. apply Qcle_antisym; [|done]. by rewrite E. }
      rewrite Z.min_l in Hy by lia. split.
      * intros Hlt. destruct (Z.le_gt_cases k (lo + 1)) as [|Hgt]; [done|]. exfalso. apply (Qclt_not_le _ _ Hlt). apply interp_le; [| |done|done].
        -- apply (Hc _ _ Hx). lia.
        -- apply (Hc _ _ Hy). lia.
      * intros Hle. apply interp_gt; [| |done|done].
        -- eapply sorted_le; [exact Hs|exact Hm|exact Hx|lia].
        -- apply Qcnot_le_lt. intros Hl. apply (Hc _ _ Hy) in Hl. lia.
Qed.
Lemma quantile_range xs p : (p < 0)%Qc \/ (1 < p)%Qc -> np_quantile xs p = Err ValueError.
Proof. intros H. unfold np_quantile. destruct H as [H|H]; rewrite (bool_decide_eq_true_2 _ H); [done|]. by rewrite orb_true_r. Qed.
Lemma quantile_empty p : (0 <= p)%Qc -> (p <= 1)%Qc -> np_quantile [] p = Err IndexError.
Proof.
  intros Hp0 Hp1. unfold np_quantile. rewrite !bool_decide_eq_false_2 by (by apply Qcle_not_lt). cbn [orb].
  unfold py_index at 1. cbv zeta. change (zlen (merge_sort Qcle [])) with 0. set (z := if _ <? 0 then _ else _). destruct (Z.ltb_spec z 0); [done|].
  destruct (Z.leb_spec 0 z); [done|lia].
Qed.

(** ** Binarisation *)
Lemma py_int_trunc q : py_int q = trunc q.
Proof.
  unfold trunc. destruct (decide (0 <= q)%Qc) as [H|H]; [by apply py_int_floor|]. apply Qcnot_le_lt in H. unfold py_int, Qceiling.
  destruct q as [[a b] Hc]. change (a * 1 < 0 * Z.pos b) in H. cbn [this Qnum Qden Qfloor Qopp].
  rewrite <- (Z.opp_involutive a) at 1. rewrite Z.quot_opp_l by lia. f_equal. apply Z.quot_div_nonneg; lia.
Qed.
Lemma py_int_Z z : py_int (Qc_of_Z z) = z.
Proof. rewrite py_int_trunc. unfold trunc, Qceiling. destruct (decide _); cbn; rewrite ?Z.div_1_r; lia. Qed.

Lemma insert_map {B} (f : Z -> B) d j v : 0 <= j < d ->
  <[Z.to_nat j := v]> (map f (seqZ 0 d)) = map (fun b => if decide (b = j) then v else f b) (seqZ 0 d).
Proof.
  intros Hj. apply list_eq. intros k. rewrite (list_lookup_fmap _ (seqZ 0 d)). destruct (decide (k = Z.to_nat j)) as [->|Hk].
  - rewrite list_lookup_insert by (rewrite map_length, seqZ_length; lia). rewrite seqZ_lookup by lia. cbn. by rewrite decide_True.
  - rewrite list_lookup_insert_ne by done. rewrite list_lookup_fmap. destruct (seqZ 0 d !! k) as [b|] eqn:E; [|done]. cbn.
    apply lookup_seqZ in E. rewrite decide_False by lia. done.
Qed.
Lemma index_map {B} (f : Z -> B) d j : 0 <= j < d -> py_index (map f (seqZ 0 d)) j = Ok (f j).
Proof. intros H. apply (index_at _ j j); [by left|lia|]. by rewrite list_lookup_fmap, seqZ_lookup. Qed.
Lemma rmap_map {A B C} (f : B -> result C) (g : A -> B) (h : A -> C) l : (forall x, x ∈ l -> f (g x) = Ok (h x)) -> rmap f (map g l) = Ok (map h l).
Proof.
  induction l as [|x l IH]; intros H; [done|]. cbn [map rmap]. rewrite H by left. cbn [rbind]. rewrite IH; [done|]. intros y Hy. apply H. by right.
Qed.
Lemma rmap_id {A B} (f : A -> result B) (h : A -> B) l : (forall x, x ∈ l -> f x = Ok (h x)) -> rmap f l = Ok (map h l).
Proof. intros H. rewrite <- (map_id l) at 1. by apply rmap_map. Qed.
Lemma column_ok {B} w (f : list Qc -> Z -> B) (A : list (list Qc)) i : 0 <= i < w ->
  column w (map (fun row => map (f row) (seqZ 0 w)) A) i = Ok (map (fun row => f row i) A).
Proof.
  intros Hi. unfold column. destruct (Z.ltb_spec i (- w)); [lia|]. destruct (Z.leb_spec w i); [lia|]. cbn [orb]. apply rmap_map. intros row _. by apply index_map.
Qed.

Section Bin.
Context (strict : bool) (p : Qc) (w : Z) (A : list (list Qc)) (HA : A <> []) (Hp0 : (0 <= p)%Qc) (Hp1 : (p <= 1)%Qc).
Definition bval (S : list Z) (row : list Qc) (x : Z) : Qc :=
  if decide (x ∈ S) then Qc_of_Z (threshold strict p A x (cell row x)) else cell row x.
Definition btab (S : list Z) : list (list Qc) := map (fun row => map (bval S row) (seqZ 0 w)) A.

Lemma step_ok (S : list Z) i : 0 <= i < w -> i ∉ S -> binarize_column strict p w (btab S) i = Ok (btab (i :: S)).
Proof.
  intros Hi HS. unfold binarize_column, btab. rewrite column_ok by done. cbn [rbind].
  assert (Ec : map (fun row => bval S row i) A = col A i). { apply map_ext. intros row. unfold bval. by rewrite decide_False. }
  rewrite Ec. destruct (quantile_ok (col A i) p) as (q & Eq & Hq); [unfold col; by destruct A|done|done|]. rewrite Eq. cbn [rbind].
  assert (Ez : zlen (col A i) = zlen A) by (unfold col; apply zlen_map). rewrite Ez in Hq.
  apply rmap_map. intros row Hrow. rewrite index_map by done. cbn [rbind]. rewrite py_setitem_ok by (rewrite zlen_map, zlen_seqZ; lia).
  rewrite insert_map by done. f_equal. apply map_ext. intros x.
  destruct (Hq (cell row i)) as [Hq1 Hq2]. { unfold col. apply elem_of_map. by exists row. }
  destruct (decide (x = i)) as [->|Hx].
  - unfold bval. destruct (decide (i ∈ i :: S)) as [_|Hn]; [|exfalso; apply Hn; left]. destruct (decide (i ∈ S)); [done|]. unfold threshold. destruct strict.
    + unfold not_larger. destruct (Z.leb_spec (zlen (filter (fun u => (u <= cell row i)%Qc) (col A i))) (Qceiling (this (Qc_of_Z (zlen A - 1) * p)%Qc))) as [Hle|Hgt].
      * rewrite bool_decide_eq_true_2 by (by apply Hq2). by rewrite Z2Qc_inj_0.
      * rewrite bool_decide_eq_false_2 by (intros ?%Hq2; lia). by rewrite Z2Qc_inj_1.
    + unfold smaller. destruct (Z.leb_spec (zlen (filter (fun u => (u < cell row i)%Qc) (col A i))) (Qfloor (this (Qc_of_Z (zlen A - 1) * p)%Qc))) as [Hle|Hgt].
      * rewrite bool_decide_eq_true_2 by (by apply Hq1). by rewrite Z2Qc_inj_0.
      * rewrite bool_decide_eq_false_2 by (intros ?%Hq1; lia). by rewrite Z2Qc_inj_1.
  - unfold bval. destruct (decide (x ∈ S)) as [H|H].
    + destruct (decide (x ∈ i :: S)) as [|Hn]; [done|]. exfalso. apply Hn. by right.
    + destruct (decide (x ∈ i :: S)) as [Hn|]; [|done]. by apply elem_of_cons in Hn as [?|?].
Qed.
Lemma steps_ok (numeric S : list Z) : NoDup numeric -> Forall (fun i => 0 <= i < w) numeric -> (forall i, i ∈ numeric -> i ∉ S) ->
  rfold (binarize_column strict p w) (btab S) numeric = Ok (btab (rev numeric ++ S)).
Proof.
  revert S. induction numeric as [|i numeric IH]; intros S Hnd Hr HS; [done|]. apply list.NoDup_cons in Hnd as [Hni Hnd]. apply list.Forall_cons in Hr as [Hi Hr].
  cbn [rfold]. rewrite step_ok; [|done|apply HS; left]. cbn [rbind]. rewrite IH; [|done|done|].
  - cbn [rev]. by rewrite <- app_assoc.
  - intros j Hj [->|Hj']%elem_of_cons; [done|]. apply (HS j); [by right|done].
Qed.
Lemma steps_err (numeric S : list Z) : NoDup numeric -> Forall (fun i => 0 <= i) numeric -> (exists i, i ∈ numeric /\ w <= i) -> 0 <= w -> (forall i, i ∈ numeric -> i ∉ S) ->
  rfold (binarize_column strict p w) (btab S) numeric = Err IndexError.
Proof.
  intros Hnd Hr Hex Hw. revert S. induction numeric as [|i numeric IH]; intros S HS. { by destruct Hex as (i & Hi%elem_of_nil & _). }
  apply list.NoDup_cons in Hnd as [Hni Hnd]. apply list.Forall_cons in Hr as [Hi Hr]. cbn [rfold].
  destruct (decide (w <= i)) as [Hwi|Hwi].
  - unfold binarize_column, column. destruct (Z.leb_spec w i); [|lia]. by rewrite orb_true_r.
  - rewrite step_ok; [|lia|apply HS; left]. cbn [rbind]. apply IH; [done|done| |].
    + destruct Hex as (j & [->|Hj]%elem_of_cons & H); [done|]. by exists j.
    + intros j Hj [->|Hj']%elem_of_cons; [done|]. apply (HS j); [by right|done].
Qed.

Lemma cat_filter (numeric l : list Z) :
  map fst (List.filter (fun xc : Z * Z => 2 <? snd xc) (map (fun x => (x, zlen (remove_dups (col A x)))) (List.filter (fun x => negb (bool_decide (x ∈ numeric))) l)))
  = filter (fun x => x ∉ numeric /\ several A x) l.
Proof.
  induction l as [|x l IH]; [done|]. cbn [List.filter]. destruct (decide (x ∈ numeric)) as [H|H].
  - rewrite bool_decide_eq_true_2 by done. cbn [negb]. rewrite filter_cons_False by naive_solver. exact IH.
  - rewrite bool_decide_eq_false_2 by done. cbn [negb map List.filter snd]. destruct (Z.ltb_spec 2 (zlen (remove_dups (col A x)))).
    + rewrite filter_cons_True by (split; [done|]; unfold several; unfold zlen in *; lia). cbn [map fst]. by rewrite IH.
    + rewrite filter_cons_False by (unfold several, zlen in *; lia). exact IH.
Qed.
Lemma lfilter_filter {B} (P : B -> Prop) {HD : forall x, Decision (P x)} (f : B -> bool) l : (forall x, x ∈ l -> f x = true <-> P x) -> List.filter f l = filter P l.
Proof.
  induction l as [|x l IH]; intros H; [done|]. cbn [List.filter]. destruct (f x) eqn:E.
  - rewrite filter_cons_True by (apply H; [left|done]). f_equal. apply IH. intros y Hy. apply H. by right.
  - rewrite filter_cons_False. { apply IH. intros y Hy. apply H. by right. } intros Hx. apply H in Hx; [congruence|left].
Qed.
Lemma categories_ok l : sorted_values l (categories l).
Proof.
  unfold categories. split.
  - assert (H1 : StronglySorted Qcle (merge_sort Qcle (remove_dups l))) by (apply StronglySorted_merge_sort; apply _).
    assert (H2 : NoDup (merge_sort Qcle (remove_dups l))). { rewrite merge_sort_Permutation. apply NoDup_remove_dups. }
    induction H1 as [|a s Hs IH Ha]; [constructor|]. apply list.NoDup_cons in H2 as [Hn H2]. constructor; [by apply IH|].
    apply list.Forall_forall. intros x Hx. eapply (proj1 (list.Forall_forall _ _)) in Ha; [|exact Hx].
    destruct (Qcle_lt_or_eq _ _ Ha) as [|E]; [done|]. by rewrite E in Hn.
  - intros v. rewrite merge_sort_Permutation. apply elem_of_remove_dups.
Qed.

Lemma binarize_ok (numeric : list Z) labels : 0 <= w -> NoDup numeric -> Forall (fun i => 0 <= i < w) numeric ->
  exists D, binarize strict p numeric w (map (fun row => map (cell row) (seqZ 0 w)) A) labels = Ok (D, map (map trunc) labels)
    /\ binarized strict p numeric w A D.
Proof.
  intros Hw Hnd Hr. unfold binarize.
  assert (map (fun row => map (cell row) (seqZ 0 w)) A = btab []) as ->.
  { apply map_ext. intros row. apply map_ext. intros x. unfold bval. by rewrite decide_False by apply not_elem_of_nil. }
  rewrite steps_ok; [|done|done|intros i _; apply not_elem_of_nil]. cbn [rbind]. rewrite app_nil_r. set (S := rev numeric).
  assert (HS : forall x, x ∈ S <-> x ∈ numeric). { intros x. unfold S. by rewrite <- Permutation_rev. }
  rewrite (rmap_id _ (fun x => (x, zlen (remove_dups (col A x))))).
  2:{ intros x [Hx1 Hx2%elem_of_py_range]%elem_of_lfilter. unfold btab. rewrite column_ok by done. cbn [rbind]. f_equal. f_equal. f_equal. f_equal.
      apply map_ext. intros row. unfold bval. rewrite decide_False; [done|]. rewrite HS. by apply negb_true_iff, bool_decide_eq_false_1 in Hx1. }
  cbn [rbind]. rewrite cat_filter. fold (py_range w). change (filter (fun x => x ∉ numeric /\ several A x) (py_range w)) with (encoded numeric w A).
  rewrite (lfilter_filter (fun x => ~ (x ∉ numeric /\ several A x))).
  2:{ intros x Hx. rewrite negb_true_iff, bool_decide_eq_false. unfold encoded. rewrite elem_of_list_filter. unfold py_range in *. tauto. }
  change (filter (fun x => ~ (x ∉ numeric /\ several A x)) (py_range w)) with (kept numeric w A).
  assert (He : forall x, x ∈ encoded numeric w A -> 0 <= x < w /\ x ∉ numeric). { intros x [[Hx1 Hx2] Hx3%elem_of_seqZ]%elem_of_list_filter. split; [lia|done]. }
  assert (Hk : forall x, x ∈ kept numeric w A -> 0 <= x < w). { intros x [_ Hx3%elem_of_seqZ]%elem_of_list_filter. lia. }
  assert (Hb : forall row x, x ∈ encoded numeric w A -> bval S row x = cell row x). { intros row x [_ Hx]%He. unfold bval. rewrite decide_False; [done|by rewrite HS]. }
  rewrite (rmap_id _ (col A)). 2:{ intros x Hx. unfold btab. rewrite column_ok by (by apply He). f_equal. apply map_ext. intros row. by apply Hb. }
  cbn [rbind]. unfold btab at 1.
  rewrite (rmap_map _ _ (fun row => map (bval S row) (kept numeric w A) ++ dummies (map (col A) (encoded numeric w A)) (map (cell row) (encoded numeric w A)))).
  2:{ intros row _. rewrite (rmap_id _ (bval S row)) by (intros x Hx%Hk; by apply index_map). cbn [rbind].
      rewrite (rmap_id _ (cell row)); [done|]. intros x Hx. rewrite index_map by (by apply He). by rewrite Hb. }
  cbn [rbind]. eexists. split; [f_equal; f_equal; apply map_ext; intros l; apply map_ext; apply py_int_trunc|].
  exists (fun x => categories (col A x)). split; [intros x; apply categories_ok|]. rewrite map_map. apply map_ext. intros row. unfold binarized_row. rewrite map_app. f_equal.
  - rewrite map_map. apply map_ext. intros x. unfold kept_value, bval. destruct (decide (x ∈ numeric)) as [Hx|Hx].
    + rewrite decide_True by (by rewrite HS). apply py_int_Z.
    + rewrite decide_False by (by rewrite HS). apply py_int_trunc.
  - unfold dummies. clear. induction (encoded numeric w A) as [|x l IH]; [done|]. cbn [map zip_with concat]. rewrite map_app, IH. f_equal. unfold one_hot. rewrite map_map.
    apply map_ext. intros c. destruct (decide _); [by rewrite <- Z2Qc_inj_1, py_int_Z|by rewrite <- Z2Qc_inj_0, py_int_Z].
Qed.
Lemma binarize_err (numeric : list Z) labels : 0 <= w -> NoDup numeric -> Forall (fun i => 0 <= i) numeric -> (exists i, i ∈ numeric /\ w <= i) ->
  binarize strict p numeric w (map (fun row => map (cell row) (seqZ 0 w)) A) labels = Err IndexError.
Proof.
  intros Hw Hnd Hr Hex. unfold binarize.
  assert (map (fun row => map (cell row) (seqZ 0 w)) A = btab []) as ->.
  { apply map_ext. intros row. apply map_ext. intros x. unfold bval. by rewrite decide_False by apply not_elem_of_nil. }
  rewrite steps_err; [done|done|done|done|done|]. intros i _. apply not_elem_of_nil.
Qed.
End Bin.

(** ** Dense rows *)
Lemma inner_dense fields : fields_ok fields -> py_split comma (str_inner (dense_line fields)) = first_char_lost fields.
Proof.
  intros [Hne Hf]. unfold dense_line, comma. destruct fields as [|f l]; [done|]. apply list.Forall_cons in Hf as [Hf Hl]. destruct f as [|c f].
  - destruct l as [|g l]; [done|]. cbn [first_char_lost].
    change (py_split "," (str_inner (String "," (join "," (g :: l)) +:+ newline)) = g :: l).
    rewrite app_cons_s. cbn [str_inner]. unfold newline. rewrite init_snoc. by apply split_join.
  - apply lacks_cons in Hf as [_ Hf]. cbn [first_char_lost].
    assert (join "," (String c f :: l) = String c (join "," (f :: l))) as ->. { by destruct l. }
    rewrite app_cons_s. cbn [str_inner]. unfold newline. rewrite init_snoc. apply split_join; [done|]. by constructor.
Qed.
Lemma rmap_all_ok {A B} (f : A -> result B) l : rmap f l = all_ok (map f l).
Proof. induction l as [|x l IH]; [done|]. cbn [rmap map all_ok]. destruct (f x); [|done]. cbn [rbind]. rewrite IH. by destruct (all_ok _). Qed.
Lemma assign_fill n vs : 0 <= n -> assign_row n vs = fill (Z.to_nat n) vs.
Proof. intros H. unfold assign_row, fill. destruct (Z.eqb_spec (zlen vs) n); destruct (decide (length vs = Z.to_nat n)); unfold zlen in *; try lia; done. Qed.
Lemma dense_row_ok fl n fields : 0 <= n -> fields_ok fields ->
  dense_row fl n (dense_line fields) = row_values (field_value fl) (Z.to_nat n) (first_char_lost fields).
Proof.
  intros Hn Hf. unfold dense_row, row_values. rewrite inner_dense by done. rewrite rmap_all_ok.
  assert (map (fun el => if decide (el = EmptyString) then Ok 0%Qc else fl el) (first_char_lost fields) = map (field_value fl) (first_char_lost fields)) as ->.
  { apply map_ext. intros [|c s]; [done|]. by rewrite decide_False. }
  destruct (all_ok _); [|done]. cbn [rbind]. by apply assign_fill.
Qed.
Lemma fill_length n vs row : fill n vs = Ok row -> length row = n.
Proof.
  unfold fill. destruct (decide _) as [H|H]; [by intros [= <-]|]. destruct vs as [|v [|v' vs]]; [done| |done]. intros [= <-]. apply replicate_length.
Qed.
Lemma values_length value n fields row : row_values value n fields = Ok row -> length row = n.
Proof. unfold row_values. destruct (all_ok _); [|done]. apply fill_length. Qed.

(** ** Numeric attributes *)
Fixpoint marks (k : Z) (attrs : list (string * string)) : list Z :=
  match attrs with [] => [] | nt :: r => (if decide (snd nt = "numeric"%string) then [k] else []) ++ marks (k + 1) r end.
Lemma third_field nt : attribute_ok nt ->
  exists t, py_index (py_split space (attribute_line nt)) 2 = Ok t /\ (t = newline_numeric <-> snd nt = "numeric"%string).
Proof.
  intros H. rewrite split_attribute by done. destruct H as [_ H].
  destruct (py_split space (snd nt +:+ newline)) as [|t ts] eqn:E; [by apply split_nonnil in E|]. exists t. split.
  { apply (index_at _ 2 2); [by left|lia|done]. }
  assert (G : forall u v, head (py_split space v) = Some u -> v = u \/ exists t, v = (u +:+ String " " t)%string).
  { clear. intros u v. revert u. induction v as [|a v IH]; intros u; cbn. { intros [= <-]. by left. }
    destruct (Ascii.eqb_spec a space) as [->|]. { intros [= <-]. right. by exists v. }
    destruct (py_split space v) as [|t ts] eqn:Et; [by apply split_nonnil in Et|]. intros [= <-].
    destruct (IH t eq_refl) as [->|[w ->]]; [by left|right; by exists w]. }
  destruct (G t (snd nt +:+ newline)%string) as [Et|[w Et]]; [by rewrite E| |].
  - rewrite <- Et. change newline_numeric with ("numeric" +:+ newline)%string. unfold newline. split; [|by intros ->].
    intros Heq. apply (f_equal str_init) in Heq. by rewrite !init_snoc in Heq.
  - assert (Hn : snd nt = (t +:+ str_init (String " " w))%string).
    { apply (f_equal str_init) in Et. unfold newline in Et. rewrite init_snoc in Et. rewrite Et. clear. induction t as [|a t IH]; [done|].
      rewrite !app_cons_s. rewrite <- IH. destruct t; done. }
    split.
    + intros ->. exfalso. rewrite Hn in H. apply lacks_app in H as [H _]. apply H. vm_compute. tauto.
    + intros Hs. exfalso. rewrite Hs in E. vm_compute in E. injection E as <- _. rewrite Hs in Et. vm_compute in Et. done.
Qed.
Lemma marks_ok first attrs : Forall attribute_ok attrs ->
  numeric_feats first (map (fun nt => py_split space (attribute_line nt)) attrs) = Ok (marks first attrs).
Proof.
  intros Ha. unfold numeric_feats, enumerate, py_range. rewrite zlen_map.
  assert (G : forall k, exists m, rmap (fun ia : Z * list string => let '(i, fields) := ia in
     let! t := py_index fields 2 in Ok (if decide (t = newline_numeric) then [first + i] else []))
     (zip (seqZ k (zlen attrs)) (map (fun nt => py_split space (attribute_line nt)) attrs)) = Ok m /\ concat m = marks (first + k) attrs).
  { induction Ha as [|nt attrs H Ha IH]; intros k. { by exists []. }
    rewrite zlen_cons. rewrite seqZ_cons by (pose proof (zlen_nonneg attrs); lia). replace (Z.pred (zlen attrs + 1)) with (zlen attrs) by lia.
    cbn [map zip zip_with rmap]. destruct (third_field nt H) as (t & -> & Ht). cbn [rbind]. destruct (IH (Z.succ k)) as (m & Em & Hm).
    rewrite Em. cbn [rbind]. eexists. split; [done|]. cbn [concat marks]. rewrite Hm. f_equal; [|f_equal; lia].
    destruct (decide (t = newline_numeric)), (decide (snd nt = "numeric"%string)); naive_solver. }
  destruct (G 0) as (m & -> & Hm). cbn [rbind]. by rewrite Hm, Z.add_0_r.
Qed.
Lemma marks_elem k attrs i : i ∈ marks k attrs <-> numeric_at attrs (i - k).
Proof.
  revert k. induction attrs as [|nt attrs IH]; intros k; cbn [marks].
  - rewrite elem_of_nil. unfold numeric_at. split; [done|]. intros [_ H]. by rewrite lookup_nil in H.
  - rewrite elem_of_app, IH. unfold numeric_at. split.
    + intros [H|[H1 H2]].
      * destruct (decide _) as [Hd|]; [|by apply elem_of_nil in H]. apply elem_of_list_singleton in H as ->. rewrite Z.sub_diag. split; [done|]. change (Some (snd nt) = Some "numeric"%string). by rewrite Hd.
      * split; [lia|]. replace (Z.to_nat (i - k)) with (S (Z.to_nat (i - (k + 1)))) by lia. done.
    + intros [H1 H2]. destruct (decide (i = k)) as [->|Hk].
      * left. rewrite Z.sub_diag in H2. injection H2 as H2. rewrite decide_True by done. by left.
      * right. split; [lia|]. replace (Z.to_nat (i - k)) with (S (Z.to_nat (i - (k + 1)))) in H2 by lia. done.
Qed.
Lemma marks_NoDup k attrs : NoDup (marks k attrs).
Proof.
  revert k. induction attrs as [|nt attrs IH]; intros k; cbn [marks]; [constructor|]. apply NoDup_app. split_and!; [|intros i Hi Hm|apply IH].
  - destruct (decide _); [apply NoDup_singleton|constructor].
  - apply marks_elem in Hm as [Hm _]. destruct (decide _); [|by apply elem_of_nil in Hi]. apply elem_of_list_singleton in Hi. lia.
Qed.
Lemma marks_range k attrs i : i ∈ marks k attrs -> k <= i < k + zlen attrs.
Proof.
  intros [H1 H2]%marks_elem. destruct (attrs !! Z.to_nat (i - k)) as [a|] eqn:E; [|done]. apply lookup_lt_Some in E. unfold zlen. lia.
Qed.

Lemma left_cells (row : list Qc) n w : zlen row = n -> 0 <= w <= n -> py_slice row 0 w = map (cell row) (seqZ 0 w).
Proof.
  intros Hn Hw. assert (row = map (cell row) (seqZ 0 n)) as ->.
  { apply list_eq. intros k. rewrite list_lookup_fmap. destruct (decide (Z.of_nat k < n)).
    - rewrite lookup_seqZ_lt by lia. rewrite Z.add_0_l. cbn [fmap option_fmap option_map]. unfold cell. rewrite Nat2Z.id. destruct (row !! k) eqn:E; [done|]. apply lookup_ge_None in E. unfold zlen in Hn. lia.
    - rewrite lookup_seqZ_ge by lia. apply lookup_ge_None. unfold zlen in Hn. lia. }
  rewrite slice_left by done. apply map_ext_in. intros x Hx%elem_of_list_In%elem_of_seqZ. unfold cell at 2. rewrite list_lookup_fmap, seqZ_lookup by lia. done.
Qed.
Lemma right_cells {B} (row : list B) n w : zlen row = n -> 0 <= w <= n -> py_slice row w (zlen row) = drop (Z.to_nat w) row.
Proof.
  intros Hn Hw. rewrite Hn. rewrite py_slice_in by (rewrite ?Hn; lia). apply take_ge. rewrite drop_length. unfold zlen in Hn. lia.
Qed.
Lemma rmap_Forall2 {B C X} (f : B -> result C) (g : X -> B) (l : list X) (A : list C) : Forall2 (fun x a => f (g x) = Ok a) l A -> rmap f (map g l) = Ok A.
Proof. induction 1 as [|x a l A H HA IH]; [done|]. cbn [map rmap]. rewrite H. cbn [rbind]. by rewrite IH. Qed.

Lemma dense_header fl h1 h2 attrs sep1 sep2 lines l p : Forall attribute_ok attrs -> not_attribute sep1 -> 0 <= l <= zlen attrs ->
  read_dense fl (h1 :: h2 :: map attribute_line attrs ++ sep1 :: sep2 :: lines) l p =
  let! A := rmap (dense_row fl (zlen attrs)) lines in
  let! '(D, labels) := binarize false p (marks 0 attrs) (zlen attrs - l) (map (fun row => py_slice row 0 (zlen attrs - l)) A)
      (map (fun row => py_slice row (zlen attrs - l) (zlen row)) A) in
  Ok (D, labels, last_names attrs l).
Proof.
  intros Ha Hs Hl. unfold read_dense. cbn [drop]. rewrite ?drop_0. rewrite attrs_ok by done. cbn [rbind]. rewrite marks_ok by done. cbn [rbind].
  rewrite names_ok by done. cbn [rbind]. rewrite last_names_ok by done. rewrite !zlen_map, !zlen_cons. pose proof (zlen_nonneg lines).
  destruct (Z.ltb_spec (zlen lines + 1 + 1) 2); [lia|]. cbn [drop]. rewrite ?drop_0. unfold split_at, left_width.
  destruct (Z.ltb_spec (zlen attrs - l) 0); [lia|]. rewrite Z.min_r by lia. done.
Qed.

Lemma C70_dense_proof : forall fl h1 h2 attrs sep1 sep2 rows n_labels p A,
  dense_file fl attrs sep1 rows n_labels p A ->
  let lines := dense_lines h1 h2 attrs sep1 sep2 rows in
  let w := zlen attrs - n_labels in
  ((exists i, numeric_at attrs i /\ w <= i) -> read_dense fl lines n_labels p = Err IndexError) /\
  ((forall i, numeric_at attrs i -> i < w) ->
   exists numeric D, (forall i, i ∈ numeric <-> numeric_at attrs i) /\ binarized false p numeric w A D /\
     read_dense fl lines n_labels p = Ok (D, map (fun row => map trunc (drop (Z.to_nat w) row)) A, last_names attrs n_labels)).
Proof.
  intros fl h1 h2 attrs sep1 sep2 rows l p A (Ha & Hs & Hl & Hne & Hp0 & Hp1 & Hf & HA) lines w. unfold lines, dense_lines. rewrite dense_header by done.
  pose proof (zlen_nonneg attrs) as Hz. rewrite (rmap_Forall2 _ _ _ A).
  2:{ clear - HA Hf Hz. induction HA as [|x row rows A H HA IH]; [constructor|]. apply list.Forall_cons in Hf as [Hx Hf]. constructor; [|by apply IH].
      rewrite dense_row_ok by done. rewrite <- H. unfold zlen. by rewrite Nat2Z.id. }
  cbn [rbind].
  assert (Hlen : forall row, row ∈ A -> zlen row = zlen attrs).
  { intros row Hrow. apply elem_of_list_lookup in Hrow as [k Hk]. destruct (Forall2_lookup_r _ _ _ _ _ HA Hk) as (x & _ & Hv). apply values_length in Hv. unfold zlen. by rewrite Hv. }
  assert (HneA : A <> []). { intros ->. by apply Forall2_nil_inv_r in HA. }
  assert (map (fun row => py_slice row 0 (zlen attrs - l)) A = map (fun row => map (cell row) (seqZ 0 w)) A) as ->.
  { apply map_ext_in. intros row Hrow%elem_of_list_In%Hlen. eapply left_cells; [exact Hrow|unfold w; lia]. }
  assert (map (fun row => py_slice row (zlen attrs - l) (zlen row)) A = map (drop (Z.to_nat w)) A) as ->.
  { apply map_ext_in. intros row Hrow%elem_of_list_In%Hlen. eapply right_cells; [exact Hrow|unfold w; lia]. }
  fold w. assert (Hm : forall i, i ∈ marks 0 attrs <-> numeric_at attrs i). { intros i. rewrite marks_elem. by rewrite Z.sub_0_r. }
  split.
  - intros (i & Hi & Hw). rewrite binarize_err; [done|done|done|done|unfold w; lia|apply marks_NoDup| |].
    + apply list.Forall_forall. intros j Hj%marks_range. lia.
    + exists i. by rewrite Hm.
  - intros Hall. destruct (binarize_ok false p w A HneA Hp0 Hp1 (marks 0 attrs) (map (drop (Z.to_nat w)) A)) as (D & -> & HD).
    + unfold w. lia.
    + apply marks_NoDup.
    + apply list.Forall_forall. intros j Hj. split; [by apply marks_range in Hj as []|]. apply Hall. by apply Hm.
    + cbn [rbind]. exists (marks 0 attrs), D. split; [exact Hm|]. split; [exact HD|]. by rewrite map_map.
Qed.


Lemma C70_row_error_proof : forall fl h1 h2 attrs sep1 sep2 rows1 bad rows2 n_labels p e,
  Forall attribute_ok attrs -> not_attribute sep1 -> 0 <= n_labels <= zlen attrs -> Forall fields_ok (rows1 ++ bad :: rows2) ->
  Forall (fun fields => is_ok (row_values (field_value fl) (length attrs) (first_char_lost fields)) = true) rows1 ->
  row_values (field_value fl) (length attrs) (first_char_lost bad) = Err e ->
  read_dense fl (h1 :: h2 :: map attribute_line attrs ++ sep1 :: sep2 :: map dense_line (rows1 ++ bad :: rows2)) n_labels p = Err e.
Proof.
  intros fl h1 h2 attrs sep1 sep2 rows1 bad rows2 l p e Ha Hs Hl Hf Hok Hbad. rewrite dense_header by done. pose proof (zlen_nonneg attrs) as Hz.
  assert (rmap (dense_row fl (zlen attrs)) (map dense_line (rows1 ++ bad :: rows2)) = Err e) as ->; [|done].
  assert (Hd : forall x, fields_ok x -> dense_row fl (zlen attrs) (dense_line x) = row_values (field_value fl) (length attrs) (first_char_lost x)).
  { intros x Hx. rewrite dense_row_ok by done. unfold zlen. by rewrite Nat2Z.id. }
  clear - Hf Hok Hbad Hd. induction Hok as [|x rows1 Hx Hok IH]; cbn [app map rmap]; apply list.Forall_cons in Hf as [Hf1 Hf]; rewrite Hd by done.
  - by rewrite Hbad.
  - destruct (row_values _ _ (first_char_lost x)) as [row|]; [|done]. cbn [rbind]. by rewrite IH.
Qed.


Lemma C70_last_char_proof : forall fl h1 h2 attrs sep1 sep2 lines1 s c lines2 n_labels p,
  Forall attribute_ok attrs -> not_attribute sep1 -> 0 <= n_labels <= zlen attrs ->
  read_dense fl (h1 :: h2 :: map attribute_line attrs ++ sep1 :: sep2 :: lines1 ++ (s +:+ String c "")%string :: lines2) n_labels p =
  read_dense fl (h1 :: h2 :: map attribute_line attrs ++ sep1 :: sep2 :: lines1 ++ (s +:+ newline)%string :: lines2) n_labels p.
Proof.
  intros fl h1 h2 attrs sep1 sep2 lines1 s c lines2 l p Ha Hs Hl. rewrite !dense_header by done. unfold newline. set (c' := ascii_of_nat 10).
  assert (E : dense_row fl (zlen attrs) (s +:+ String c "")%string = dense_row fl (zlen attrs) (s +:+ String c' "")%string).
  { unfold dense_row. destruct s as [|a s]; [done|]. rewrite !app_cons_s. cbn [str_inner]. by rewrite !init_snoc. }
  assert (rmap (dense_row fl (zlen attrs)) (lines1 ++ (s +:+ String c "")%string :: lines2) = rmap (dense_row fl (zlen attrs)) (lines1 ++ (s +:+ String c' "")%string :: lines2)) as ->; [|done].
  induction lines1 as [|x lines1 IH]; cbn [app rmap]; [by rewrite E|]. by rewrite IH.
Qed.


(** ** Consequences *)
Lemma threshold_01 strict p A x v : threshold strict p A x v = 0 \/ threshold strict p A x v = 1.
Proof. unfold threshold. destruct strict; destruct (_ <=? _); auto. Qed.
Lemma one_hot_01 vs v : Forall (fun z => z = 0 \/ z = 1) (one_hot vs v).
Proof. apply list.Forall_forall. intros z (c & -> & _)%elem_of_map. destruct (decide _); auto. Qed.
Lemma binary_iff strict p (numeric : list Z) w A D : binarized strict p numeric w A D ->
  (binary D <-> forall x, 0 <= x < w -> x ∉ numeric -> ~ several A x -> forall row, row ∈ A -> trunc (cell row x) = 0 \/ trunc (cell row x) = 1).
Proof.
  intros (vals & _ & ->). unfold binary. split.
  - intros H x Hx Hn Hs row Hrow. eapply (proj1 (list.Forall_forall _ _)) in H; [|apply elem_of_map; by exists row].
    unfold binarized_row in H. apply Forall_app in H as [H _]. eapply (proj1 (list.Forall_forall _ _)) in H.
    2:{ apply elem_of_map. exists x. split; [done|]. apply elem_of_list_filter. split; [tauto|]. apply elem_of_seqZ. lia. }
    unfold kept_value in H. by rewrite decide_False in H.
  - intros H. apply list.Forall_forall. intros r (row & -> & Hrow)%elem_of_map. unfold binarized_row. apply Forall_app. split.
    + apply list.Forall_forall. intros z (x & -> & [Hk Hx%elem_of_seqZ]%elem_of_list_filter)%elem_of_map. unfold kept_value.
      destruct (decide (x ∈ numeric)); [apply threshold_01|]. apply H; [lia|done|tauto|done].
    + induction (encoded numeric w A) as [|x l IH]; [constructor|]. cbn [map concat]. apply Forall_app. split; [apply one_hot_01|done].
Qed.

Lemma count_mono {B} (P Q : B -> Prop) {HP : forall u, Decision (P u)} {HQ : forall u, Decision (Q u)} (l : list B) :
  (forall u, P u -> Q u) -> zlen (filter P l) <= zlen (filter Q l).
Proof.
  intros H. induction l as [|x l IH]; [done|]. destruct (decide (P x)) as [Hx|Hx].
  - rewrite !filter_cons_True by auto. rewrite !zlen_cons. lia.
  - rewrite (filter_cons_False P) by done. destruct (decide (Q x)); [rewrite filter_cons_True, zlen_cons by done; lia|by rewrite filter_cons_False].
Qed.
Lemma count_all {B} (P : B -> Prop) {HP : forall u, Decision (P u)} (l : list B) : zlen (filter P l) <= zlen l.
Proof. unfold zlen. pose proof (filter_length P l). lia. Qed.
Lemma zeros_count p A x : A <> [] -> (0 <= p)%Qc -> (p <= 1)%Qc ->
  let k := Qfloor (this (Qc_of_Z (zlen A - 1) * p)%Qc) + 1 in
  let zeros := zlen (filter (fun row => threshold false p A x (cell row x) = 0) A) in
  k <= zeros /\ (NoDup (col A x) -> zeros = k).
Proof.
  intros Hne Hp0 Hp1 k zeros. set (lo := Qfloor (this (Qc_of_Z (zlen A - 1) * p)%Qc)) in *. set (P := fun v : Qc => smaller A x v <= lo).
  assert (Hz : zeros = zlen (filter P (col A x))).
  { unfold zeros. assert (forall B, filter P (map (fun row => cell row x) B) = map (fun row => cell row x) (filter (fun row => threshold false p A x (cell row x) = 0) B)) as HB; [|unfold col; by rewrite HB, zlen_map].
    intros B. induction B as [|row B IH]; [done|]. cbn [map]. destruct (decide (P (cell row x))) as [Hd|Hd].
    - rewrite filter_cons_True by done. rewrite filter_cons_True; [cbn [map]; by rewrite IH|]. unfold threshold. fold lo. unfold P in Hd. destruct (Z.leb_spec (smaller A x (cell row x)) lo); [done|lia].
    - rewrite filter_cons_False by done. rewrite filter_cons_False; [done|]. unfold threshold. fold lo. unfold P in Hd. destruct (Z.leb_spec (smaller A x (cell row x)) lo); [lia|done]. }
  rewrite Hz. clear Hz zeros. set (s := merge_sort Qcle (col A x)). assert (Hperm : s ≡ₚ col A x) by apply merge_sort_Permutation.
  assert (Hs : StronglySorted Qcle s) by (apply StronglySorted_merge_sort; apply _).
  assert (Hn : 1 <= zlen A). { unfold zlen. destruct A; [done|]. cbn. lia. }
  assert (Hls : Z.of_nat (length s) = zlen A). { rewrite Hperm. unfold col, zlen. by rewrite map_length. }
  destruct (proj1 (floor_bounds (Qc_of_Z (zlen A - 1) * p)%Qc lo) eq_refl) as [Hf1 Hf2].
  assert (Hh0 : (0 <= Qc_of_Z (zlen A - 1) * p)%Qc). { apply Qcmult_nonneg_nonneg; [apply Qc_of_Z_nonneg; lia|done]. }
  assert (Hh1 : (Qc_of_Z (zlen A - 1) * p <= Qc_of_Z (zlen A - 1))%Qc). { rewrite <- (Qcmult_1_r (Qc_of_Z (zlen A - 1))) at 2. apply Qcmult_le_mono_nonneg_l; [apply Qc_of_Z_nonneg; lia|done]. }
  assert (Hlo0 : 0 <= lo). { assert (0 < lo + 1); [|lia]. apply Z2Qc_inj_lt. rewrite Z2Qc_inj_0. by eapply Qcle_lt_trans. }
  assert (Hlo1 : lo <= zlen A - 1). { apply Z2Qc_inj_le. by eapply Qcle_trans. }
  clear Hf1 Hf2 Hh0 Hh1. clearbody lo. rewrite <- (count_perm P _ _ Hperm).
  pose proof (sorted_count P s) as HcP. specialize (HcP ltac:(intros a b H1 H2; unfold P, smaller in *; etrans; [|exact H2]; apply count_mono; intros u Hu; by eapply Qclt_le_trans) Hs).
  assert (Hsm : forall v, smaller A x v = zlen (filter (fun u => (u < v)%Qc) s)). { intros v. unfold smaller. symmetry. by apply count_perm. }
  assert (Hlt : forall v i y, s !! i = Some y -> ((y < v)%Qc <-> Z.of_nat i < smaller A x v)).
  { intros v i y Hi. rewrite Hsm. apply (sorted_count (fun u => (u < v)%Qc) s); [intros a b H1 H2; by eapply Qcle_lt_trans|done|done]. }
  destruct (lookup_lt_is_Some_2 s (Z.to_nat lo)) as [y Hy]; [lia|].
  assert (HPy : P y). { unfold P. destruct (Z.le_gt_cases (smaller A x y) lo) as [|Hgt]; [done|]. exfalso. apply (irreflexivity Qclt y). apply (Hlt y _ _ Hy). lia. }
  apply (HcP _ _ Hy) in HPy. split; [unfold k; lia|]. intros Hnd.
  destruct (decide (lo = zlen A - 1)) as [E|E].
  - pose proof (count_all P s) as Hc. unfold zlen at 2 in Hc. rewrite Hls in Hc. unfold k. lia.
  - destruct (lookup_lt_is_Some_2 s (Z.to_nat (lo + 1))) as [y' Hy']; [lia|].
    assert (HnP : ~ P y').
    { unfold P. intros Hle. assert (Hyy : (y < y')%Qc).
      { assert (Hle' : (y <= y')%Qc) by (eapply sorted_le; [exact Hs|exact Hy|exact Hy'|lia]). destruct (Qcle_lt_or_eq _ _ Hle') as [|Eq]; [done|]. exfalso. subst y'. rewrite <- Hperm in Hnd.
        pose proof (NoDup_lookup _ _ _ _ Hnd Hy Hy'). lia. }
      apply (Hlt y' _ _ Hy) in Hyy. lia. }
    rewrite (HcP _ _ Hy') in HnP. unfold k. lia.
Qed.
Lemma col_entry strict p (numeric : list Z) w A D x : binarized strict p numeric w A D -> 0 <= x < w -> x ∈ numeric ->
  exists k, D = map (fun row => binarized_row strict p numeric w A (fun _ => []) row) [] ++ D /\
   forall j row d, A !! j = Some row -> D !! j = Some d -> d !! k = Some (threshold strict p A x (cell row x)).
Proof.
  intros (vals & _ & ->) Hx Hn. assert (Hk : x ∈ kept numeric w A). { apply elem_of_list_filter. split; [tauto|]. apply elem_of_seqZ. lia. }
  apply elem_of_list_lookup in Hk as [k Hk]. exists k. split; [done|]. intros j row d Hj Hd. rewrite list_lookup_fmap, Hj in Hd. injection Hd as <-.
  unfold binarized_row. rewrite lookup_app_l by (rewrite map_length; by eapply lookup_lt_Some). rewrite list_lookup_fmap, Hk. cbn [fmap option_fmap option_map].
  unfold kept_value. by rewrite decide_True.
Qed.
Lemma one_hot_sum vs v : NoDup vs -> v ∈ vs -> zsum (one_hot vs v) = 1.
Proof.
  unfold one_hot. induction vs as [|c vs IH]; intros Hnd Hv; [by apply elem_of_nil in Hv|]. apply list.NoDup_cons in Hnd as [Hc Hnd]. cbn [map zsum foldr].
  destruct (decide (v = c)) as [->|Hne].
  - assert (zsum (map (fun c0 => if decide (c = c0) then 1 else 0) vs) = 0) as E; [|unfold zsum in E; lia].
    clear - Hc. induction vs as [|d vs IH]; [done|]. apply not_elem_of_cons in Hc as [H1 H2]. cbn [map]. rewrite decide_False by done. by apply IH.
  - apply elem_of_cons in Hv as [?|Hv]; [done|]. specialize (IH Hnd Hv). unfold zsum in IH. lia.
Qed.
Lemma sorted_NoDup vs : StronglySorted Qclt vs -> NoDup vs.
Proof.
  induction 1 as [|a vs Hs IH Ha]; constructor; [|done]. intros H. eapply (proj1 (list.Forall_forall _ _)) in Ha; [|exact H]. by apply (irreflexivity Qclt) in Ha.
Qed.
Lemma hot_sum strict p (numeric : list Z) w A D : binarized strict p numeric w A D ->
  Forall (fun d => zsum (drop (length (kept numeric w A)) d) = zlen (encoded numeric w A)) D.
Proof.
  intros (vals & Hv & ->). apply list.Forall_forall. intros d (row & -> & Hrow)%elem_of_map. unfold binarized_row. rewrite drop_app_alt by (by rewrite map_length).
  induction (encoded numeric w A) as [|x l IH]; [done|]. cbn [map concat]. rewrite zsum_app, IH, zlen_cons. destruct (Hv x) as [H1 H2].
  rewrite one_hot_sum; [lia|by apply sorted_NoDup|]. apply H2. unfold col. apply elem_of_map. by exists row.
Qed.

Lemma dense_inv fl h1 h2 attrs sep1 sep2 rows l p A D labels names : dense_file fl attrs sep1 rows l p A ->
  read_dense fl (dense_lines h1 h2 attrs sep1 sep2 rows) l p = Ok (D, labels, names) ->
  exists numeric, (forall i, i ∈ numeric <-> numeric_at attrs i) /\ (forall i, i ∈ numeric -> 0 <= i < zlen attrs - l) /\ binarized false p numeric (zlen attrs - l) A D.
Proof.
  intros Hf E. destruct (C70_dense_proof fl h1 h2 attrs sep1 sep2 rows l p A Hf) as [G1 G2]. cbv zeta in G1, G2.
  assert (Hm : forall i, i ∈ marks 0 attrs <-> numeric_at attrs i). { intros i. rewrite marks_elem. by rewrite Z.sub_0_r. }
  destruct (decide (Exists (fun i => zlen attrs - l <= i) (marks 0 attrs))) as [Hex|Hno].
  - apply list.Exists_exists in Hex as (i & Hi & Hw). rewrite G1 in E; [done|]. exists i. by rewrite <- Hm.
  - assert (Hall : forall i, numeric_at attrs i -> i < zlen attrs - l).
    { intros i Hi. destruct (Z.le_gt_cases (zlen attrs - l) i); [|done]. exfalso. apply Hno. apply list.Exists_exists. exists i. by rewrite Hm. }
    destruct (G2 Hall) as (numeric & D' & Hn & HD & E'). rewrite E' in E. injection E as <- _ _. exists numeric. split; [done|]. split; [|done].
    intros i Hi. apply Hn in Hi. split; [by apply Hi|by apply Hall].
Qed.

Lemma C71_binary_proof : forall fl h1 h2 attrs sep1 sep2 rows n_labels p A D labels names,
  dense_file fl attrs sep1 rows n_labels p A ->
  read_dense fl (dense_lines h1 h2 attrs sep1 sep2 rows) n_labels p = Ok (D, labels, names) ->
  (binary D <-> forall x, 0 <= x < zlen attrs - n_labels -> ~ numeric_at attrs x -> ~ several A x ->
     forall row, row ∈ A -> trunc (cell row x) = 0 \/ trunc (cell row x) = 1).
Proof.
  intros fl h1 h2 attrs sep1 sep2 rows l p A D labels names Hf E.
  destruct (dense_inv _ _ _ _ _ _ _ _ _ _ _ _ _ Hf E) as (numeric & Hn & Hr & HD). rewrite (binary_iff _ _ _ _ _ _ HD).
  split; intros H x Hx Hx1; (apply (H x Hx); intros Hc; apply Hx1; by apply Hn).
Qed.


Lemma C71_zeros_proof : forall fl h1 h2 attrs sep1 sep2 rows n_labels p A D labels names x,
  dense_file fl attrs sep1 rows n_labels p A ->
  read_dense fl (dense_lines h1 h2 attrs sep1 sep2 rows) n_labels p = Ok (D, labels, names) -> numeric_at attrs x ->
  exists k, let zeros := zlen (filter (fun d => d !! k = Some 0) D) in
    let expected := Qfloor (this (Qc_of_Z (zlen rows - 1) * p)%Qc) + 1 in
    (forall j row d, A !! j = Some row -> D !! j = Some d -> d !! k = Some (threshold false p A x (cell row x))) /\
    expected <= zeros /\ (NoDup (col A x) -> zeros = expected).
Proof.
  intros fl h1 h2 attrs sep1 sep2 rows l p A D labels names x Hf E Hx.
  destruct (dense_inv _ _ _ _ _ _ _ _ _ _ _ _ _ Hf E) as (numeric & Hn & Hr & HD). apply Hn in Hx.
  destruct Hf as (_ & _ & _ & Hne & Hp0 & Hp1 & _ & HA).
  assert (HneA : A <> []). { intros ->. by apply Forall2_nil_inv_r in HA. }
  assert (zlen rows = zlen A) as ->. { unfold zlen. by rewrite (Forall2_length _ _ _ HA). }
  destruct (col_entry _ _ _ _ _ _ x HD) as (k & _ & Hk); [by apply Hr|done|]. exists k. cbv zeta. split; [exact Hk|].
  assert (zlen (filter (fun d => d !! k = Some 0) D) = zlen (filter (fun row => threshold false p A x (cell row x) = 0) A)) as ->.
  { destruct HD as (vals & _ & ->). remember (map (binarized_row false p numeric (zlen attrs - l) A vals) A) as D eqn:ED.
    assert (Hr' : Forall2 (fun row (d : list Z) => d !! k = Some (threshold false p A x (cell row x))) A D).
    { apply Forall2_same_length_lookup. split; [rewrite ED; by rewrite map_length|]. intros i row d Hi Hd. by apply (Hk i). }
    clear - Hr'. remember (fun row => threshold false p A x (cell row x)) as g. assert (Hg : Forall2 (fun row (d : list Z) => d !! k = Some (g row)) A D) by (by subst g).
    assert (Hz : zlen (filter (fun row => g row = 0) A) = zlen (filter (fun row => threshold false p A x (cell row x) = 0) A)) by (by subst g). rewrite <- Hz. clear - Hg.
    induction Hg as [|row d A D H Hg IH]; [done|]. rewrite !filter_cons. destruct (decide (d !! k = Some 0)), (decide (g row = 0)); rewrite ?zlen_cons; try congruence. }
  by apply zeros_count.
Qed.


Lemma C71_one_hot_proof : forall fl h1 h2 attrs sep1 sep2 rows n_labels p A D labels names,
  dense_file fl attrs sep1 rows n_labels p A ->
  read_dense fl (dense_lines h1 h2 attrs sep1 sep2 rows) n_labels p = Ok (D, labels, names) ->
  exists numeric, (forall i, i ∈ numeric <-> numeric_at attrs i) /\
    let w := zlen attrs - n_labels in
    Forall (fun d => zsum (drop (length (kept numeric w A)) d) = zlen (encoded numeric w A)) D.
Proof.
  intros fl h1 h2 attrs sep1 sep2 rows l p A D labels names Hf E.
  destruct (dense_inv _ _ _ _ _ _ _ _ _ _ _ _ _ Hf E) as (numeric & Hn & Hr & HD). exists numeric. split; [done|]. by apply hot_sum in HD.
Qed.


(** ** Genbase *)
Lemma genbase_row_ok fl n prot fields : 0 <= n -> prot <> ""%string -> lacks "," prot -> Forall (lacks ",") fields ->
  genbase_row fl n (dense_line (prot :: fields)) = row_values (yes_no fl) (Z.to_nat n) fields.
Proof.
  intros Hn Hp1 Hp2 Hf. unfold genbase_row. rewrite inner_dense by (split; [done|by constructor]). destruct prot as [|c prot]; [done|]. cbn [first_char_lost drop]. rewrite drop_0.
  unfold row_values. rewrite rmap_all_ok.
  assert (map (genbase_cell fl) fields = map (yes_no fl) fields) as ->.
  { apply map_ext. intros s. unfold genbase_cell, yes_no, field_value. destruct (decide (s = "YES"%string)); [done|]. destruct (decide (s = "NO"%string)); [done|].
    destruct s; [done|]. by rewrite decide_False. }
  destruct (all_ok _); [|done]. cbn [rbind]. by apply assign_fill.
Qed.
Lemma left_cells' (row : list Qc) w : 0 <= w <= zlen row -> py_slice row 0 w = map (cell row) (seqZ 0 w).
Proof. intros H. by eapply left_cells. Qed.

Lemma C72_genbase_proof : forall fl h1 h2 protein attrs sep1 sep2 (rows : list (string * list string)) n_labels p A,
  Forall attribute_ok attrs -> not_attribute sep1 -> 1 <= n_labels <= zlen attrs -> rows <> [] -> (0 <= p)%Qc -> (p <= 1)%Qc ->
  Forall (fun r => fst r <> ""%string /\ lacks "," (fst r) /\ Forall (lacks ",") (snd r)) rows ->
  Forall2 (fun r row => row_values (yes_no fl) (length attrs) (snd r) = Ok row) rows A ->
  let lines := h1 :: h2 :: protein :: map attribute_line attrs ++ sep1 :: sep2 :: map (fun r => dense_line (fst r :: snd r)) rows in
  let w := zlen attrs - n_labels + 1 in
  ((exists i, numeric_at attrs (i - 1) /\ w <= i) -> read_genbase fl lines n_labels p = Err IndexError) /\
  ((forall i, numeric_at attrs (i - 1) -> i < w) ->
   exists numeric D labels, (forall i, i ∈ numeric <-> numeric_at attrs (i - 1)) /\ binarized true p numeric w A D /\
     read_genbase fl lines n_labels p = Ok (D, labels) /\
     labels = map (fun row => map trunc (drop (Z.to_nat w) row)) A /\ Forall (fun r => zlen r = n_labels - 1) labels).
Proof.
  intros fl h1 h2 protein attrs sep1 sep2 rows l p A Ha Hs Hl Hne Hp0 Hp1 Hf HA lines w. unfold lines, read_genbase. cbn [drop]. rewrite ?drop_0. rewrite attrs_ok by done. cbn [rbind].
  rewrite marks_ok by done. cbn [rbind]. rewrite !zlen_map, !zlen_cons. set (ls := map (fun r => dense_line (fst r :: snd r)) rows). pose proof (zlen_nonneg ls).
  destruct (Z.ltb_spec (zlen ls + 1 + 1) 2); [lia|]. cbn [drop]. rewrite ?drop_0. pose proof (zlen_nonneg attrs) as Hz.
  replace (zlen attrs + 1 - 1) with (zlen attrs) by lia. replace (zlen attrs + 1 - l) with w by (unfold w; lia).
  unfold ls. rewrite (rmap_Forall2 _ _ _ A).
  2:{ clear - HA Hf Hz. induction HA as [|x row rows A H HA IH]; [constructor|]. apply list.Forall_cons in Hf as [(Hx1 & Hx2 & Hx3) Hf]. constructor; [|by apply IH].
      rewrite genbase_row_ok by done. rewrite <- H. unfold zlen. by rewrite Nat2Z.id. }
  cbn [rbind]. unfold split_at, left_width. destruct (Z.ltb_spec w 0); [unfold w in *; lia|]. rewrite Z.min_r by (unfold w; lia).
  assert (Hlen : forall row, row ∈ A -> zlen row = zlen attrs).
  { intros row Hrow. apply elem_of_list_lookup in Hrow as [k Hk]. destruct (Forall2_lookup_r _ _ _ _ _ HA Hk) as (x & _ & Hv). apply values_length in Hv. unfold zlen. by rewrite Hv. }
  assert (HneA : A <> []). { intros ->. by apply Forall2_nil_inv_r in HA. }
  assert (map (fun row => py_slice row 0 w) A = map (fun row => map (cell row) (seqZ 0 w)) A) as ->.
  { apply map_ext_in. intros row Hrow%elem_of_list_In%Hlen. eapply left_cells; [exact Hrow|unfold w; lia]. }
  assert (map (fun row => py_slice row w (zlen row)) A = map (drop (Z.to_nat w)) A) as ->.
  { apply map_ext_in. intros row Hrow%elem_of_list_In%Hlen. eapply right_cells; [exact Hrow|unfold w; lia]. }
  split.
  - intros (i & Hi & Hw). apply binarize_err; [done|done|done|unfold w; lia|apply marks_NoDup| |].
    + apply list.Forall_forall. intros j Hj%marks_range. lia.
    + exists i. by rewrite marks_elem.
  - intros Hall. destruct (binarize_ok true p w A HneA Hp0 Hp1 (marks 1 attrs) (map (drop (Z.to_nat w)) A)) as (D & E & HD).
    + unfold w. lia.
    + apply marks_NoDup.
    + apply list.Forall_forall. intros j Hj. split; [apply marks_range in Hj; lia|]. apply Hall. by apply marks_elem.
    + exists (marks 1 attrs), D. eexists. split; [apply marks_elem|]. split; [exact HD|]. split; [exact E|]. rewrite map_map. split; [done|].
      apply list.Forall_forall. intros r (row & -> & Hrow%Hlen)%elem_of_map. rewrite zlen_map. unfold zlen in *. rewrite drop_length. unfold w in *. lia.
Qed.


(** ** The generator *)
Lemma filter_map_count {B C} (f : B -> C) (P : C -> Prop) {HP : forall u, Decision (P u)} (Q : B -> Prop) {HQ : forall u, Decision (Q u)} (l : list B) :
  (forall x, x ∈ l -> (P (f x) <-> Q x)) -> zlen (filter P (map f l)) = zlen (filter Q l).
Proof.
  induction l as [|x l IH]; intros H; [done|]. cbn [map]. specialize (IH ltac:(intros y Hy; apply H; by right)). specialize (H x ltac:(by left)).
  destruct (decide (Q x)); [rewrite !filter_cons_True by tauto|rewrite !filter_cons_False by tauto]; rewrite ?zlen_cons; lia.
Qed.
Lemma count_mono_in {B} (P Q : B -> Prop) {HP : forall u, Decision (P u)} {HQ : forall u, Decision (Q u)} (l : list B) :
  (forall u, u ∈ l -> P u -> Q u) -> zlen (filter P l) <= zlen (filter Q l).
Proof.
  intros H. induction l as [|x l IH]; [done|]. specialize (IH ltac:(intros u Hu; apply H; by right)). specialize (H x ltac:(by left)). destruct (decide (P x)) as [Hx|Hx].
  - rewrite !filter_cons_True by auto. rewrite !zlen_cons. lia.
  - rewrite (filter_cons_False P) by done. destruct (decide (Q x)); [rewrite filter_cons_True, zlen_cons by done; lia|by rewrite filter_cons_False].
Qed.
Lemma list_max (P : Z -> Prop) {HP : forall u, Decision (P u)} (l : list Z) v : v ∈ l -> P v -> exists m, m ∈ l /\ P m /\ forall u, u ∈ l -> P u -> u <= m.
Proof.
  revert v. induction l as [|x l IH]; intros v Hv Hp; [by apply elem_of_nil in Hv|].
  assert (Hcase : (exists u, u ∈ filter P l) \/ ~ (exists u, u ∈ filter P l)). { destruct (filter P l) as [|z r]; [right; by intros (u & Hu%elem_of_nil)|left; exists z; left]. }
  destruct Hcase as [(u & [Hu1 Hu2]%elem_of_list_filter)|Hn].
  - destruct (IH u Hu2 Hu1) as (m & Hm & Hpm & Hmax). destruct (decide (P x /\ m < x)) as [[Hx Hmx]|Hx].
    + exists x. split_and!; [left|done|]. intros w [->|Hw]%elem_of_cons Hpw; [done|]. specialize (Hmax w Hw Hpw). lia.
    + exists m. split_and!; [by right|done|]. intros w [->|Hw]%elem_of_cons Hpw; [|by apply Hmax]. destruct (Z.le_gt_cases x m); [done|]. exfalso. by apply Hx.
  - assert (Hno : forall u, u ∈ l -> ~ P u). { intros u Hu Hpu. apply Hn. exists u. by apply elem_of_list_filter. }
    apply elem_of_cons in Hv as [->|Hv]; [|by apply Hno in Hv]. exists x. split_and!; [left|done|]. intros w [->|Hw]%elem_of_cons Hpw; [done|]. by apply Hno in Hw.
Qed.
Lemma concat_map_map {B C} (f : B -> C) (D : list (list B)) : concat (map (map f) D) = map f (concat D).
Proof. symmetry. apply concat_map. Qed.

Lemma C73_density_proof : forall D p, concat D <> [] -> Forall (Forall (fun v => 0 <= v)) D -> (0 <= p)%Qc -> (p <= 1)%Qc ->
  threshold_density D p = Ok (map (map (density_cell D p)) D).
Proof.
  intros D p Hne Hpos Hp0 Hp1. unfold threshold_density. set (l := concat D) in *.
  assert (Hl : forall v, v ∈ l -> 0 <= v).
  { intros v Hv. unfold l in Hv. apply elem_of_concat in Hv as (r & Hr & Hv). eapply (proj1 (list.Forall_forall _ _)) in Hpos; [|exact Hr]. by eapply (proj1 (list.Forall_forall _ _)) in Hpos. }
  destruct (quantile_ok (map Qc_of_Z l) p) as (q & -> & Hq); [by destruct l|done|done|]. cbn [rbind].
  set (f := fun x : Z => if bool_decide (Qc_of_Z x < q)%Qc then 1 else x). set (g := Qceiling (this (Qc_of_Z (zlen l - 1) * p)%Qc)).
  assert (Hlt : forall v, v ∈ l -> ((Qc_of_Z v < q)%Qc <-> up_to D v <= g)).
  { intros v Hv. destruct (Hq (Qc_of_Z v)) as [_ H2]; [apply elem_of_map; by exists v|]. rewrite H2. rewrite zlen_map. fold g. unfold up_to. fold l.
    rewrite (filter_map_count _ _ (fun u => u <= v)); [done|]. intros u _. symmetry. apply Z2Qc_inj_le. }
  rewrite concat_map_map. fold l. destruct (quantile_ok (map Qc_of_Z (map f l)) p) as (q1 & -> & Hq1); [by destruct l|done|done|]. cbn [rbind].
  rewrite !zlen_map in Hq1. fold g in Hq1.
  assert (Hge : forall v, v ∈ map f l -> ((q1 <= Qc_of_Z v)%Qc <-> g < zlen (filter (fun u => u <= v) (map f l)))).
  { intros v Hv. destruct (Hq1 (Qc_of_Z v)) as [_ H2]; [apply elem_of_map; by exists v|].
    rewrite (filter_map_count _ _ (fun u => u <= v)) in H2 by (intros u _; symmetry; apply Z2Qc_inj_le). split.
    - intros H. apply Z.nle_gt. intros H'. apply H2 in H'. by apply (Qcle_not_lt _ _ H).
    - intros H. apply Qcnot_lt_le. intros H'. apply H2 in H'. lia. }
  f_equal. rewrite map_map. apply map_ext_in. intros r Hr%elem_of_list_In. rewrite map_map. apply map_ext_in. intros v Hv%elem_of_list_In.
  assert (Hvl : v ∈ l) by (apply elem_of_concat; by exists r). clear r Hr Hv.
  unfold density_cell. fold l. fold g.
  assert (Hfv : forall u, u ∈ l -> f u = if bool_decide (up_to D u <= g) then 1 else u). { intros u Hu. unfold f. by rewrite (bool_decide_ext _ _ (Hlt u Hu)). }
  assert (Hmono : forall a b, a <= b -> up_to D a <= up_to D b). { intros a b Hab. unfold up_to. apply count_mono. intros u Hu. lia. }
  destruct (Z.ltb_spec g (up_to D 1)) as [Hc|Hc].
  - case_bool_decide as Hb; [done|]. destruct (decide (1 <= f v)) as [H1|H1].
    + exfalso. apply Hb. apply Hge; [apply elem_of_map; by exists v|]. eapply Z.lt_le_trans; [exact Hc|].
      rewrite (filter_map_count f _ (fun u => f u <= f v)) by done. unfold up_to. fold l. apply count_mono. intros u Hu. unfold f at 1. case_bool_decide; lia.
    + rewrite Hfv in * by done. pose proof (Hl v Hvl). case_bool_decide; lia.
  - destruct (Z.leb_spec (up_to D v) g) as [Hv|Hv].
    + assert (f v = 1) as E1 by (rewrite Hfv by done; by rewrite bool_decide_eq_true_2). rewrite bool_decide_eq_false_2; [done|]. intros Hb. apply Hge in Hb; [|apply elem_of_map; by exists v].
      rewrite E1 in Hb. destruct (list_max (fun u => up_to D u <= g) l v Hvl Hv) as (m & Hm & Hmg & Hmax).
      rewrite (filter_map_count f _ (fun u => up_to D u <= g)) in Hb.
      2:{ intros u Hu. rewrite Hfv by done. case_bool_decide as Hd; [lia|]. split; [|done]. intros Hu1. exfalso. apply Hd. etrans; [apply (Hmono u 1 Hu1)|done]. }
      assert (zlen (filter (fun u => up_to D u <= g) l) <= up_to D m); [|lia]. unfold up_to at 2. fold l.
      apply count_mono_in. intros u Hu Hug. by apply Hmax.
    + assert (f v = v) as E1 by (rewrite Hfv by done; rewrite bool_decide_eq_false_2; [done|lia]). rewrite bool_decide_eq_true_2; [done|]. apply Hge; [apply elem_of_map; by exists v|].
      rewrite E1. eapply Z.lt_le_trans; [exact Hv|]. rewrite (filter_map_count f _ (fun u => f u <= v)) by done. unfold up_to. fold l. apply count_mono. intros u Hu.
      assert (1 < v). { apply Z.nle_gt. intros Hv1. apply Hmono in Hv1. lia. } unfold f. case_bool_decide; lia.
Qed.


Lemma C73_errors_proof : forall D p,
  ((p < 0)%Qc \/ (1 < p)%Qc -> threshold_density D p = Err ValueError) /\
  ((0 <= p)%Qc -> (p <= 1)%Qc -> concat D = [] -> threshold_density D p = Err IndexError).
Proof.
  intros D p. unfold threshold_density. split.
  - intros H. by rewrite quantile_range.
  - intros H0 H1 E. rewrite E. cbn [map]. by rewrite quantile_empty.
Qed.


(** ** The wrapper *)
Lemma has_train_iff f : has_train f = true <-> exists n, substring n 5 f = "train"%string.
Proof.
  unfold has_train. destruct (String.index 0 "train" f) as [m|] eqn:E; split; try done.
  - intros _. exists m. by apply index_correct1 in E.
  - intros (n & Hn). exfalso. by apply (index_correct3 0 n "train" f E); [done|lia|].
Qed.
Lemma last_split c s t : lacks c t -> List.last (py_split c (s +:+ String c t)) EmptyString = t.
Proof.
  intros Ht. induction s as [|a s IH].
  - change ("" +:+ String c t)%string with (String c t). cbn [py_split]. rewrite Ascii.eqb_refl, split_lacks by done. done.
  - rewrite app_cons_s. cbn [py_split]. destruct (Ascii.eqb a c).
    + cbn [List.last]. destruct (py_split c (s +:+ String c t)) eqn:E; [by apply split_nonnil in E|done].
    + destruct (py_split c (s +:+ String c t)) as [|x [|y l]] eqn:E; [by apply split_nonnil in E| |done].
      exfalso. clear - E. revert x E. induction s as [|b s IHs]; intros x.
      * change ("" +:+ String c t)%string with (String c t). cbn [py_split]. rewrite Ascii.eqb_refl. destruct (py_split c t) eqn:Et; [by apply split_nonnil in Et|done].
      * rewrite app_cons_s. cbn [py_split]. destruct (Ascii.eqb b c); [destruct (py_split c (s +:+ String c t)) eqn:Et; [by apply split_nonnil in Et|done]|].
        destruct (py_split c (s +:+ String c t)) as [|y l] eqn:Et; [by apply split_nonnil in Et|]. intros [= _ ->]. by apply (IHs y).
Qed.
Lemma existsb_train files : existsb has_train files = bool_decide (Exists (fun f => has_train f = true) files).
Proof.
  induction files as [|f files IH]; [done|]. cbn [existsb]. rewrite IH. destruct (has_train f) eqn:E; cbn [orb].
  - symmetry. apply bool_decide_eq_true_2. by left.
  - apply bool_decide_ext. rewrite Exists_cons. rewrite E. naive_solver.
Qed.
Lemma rmap_length {A B} (f : A -> result B) l l' : rmap f l = Ok l' -> zlen l' = zlen l.
Proof.
  revert l'. induction l as [|x l IH]; intros l'; cbn [rmap]; [by intros [= <-]|]. intros (y & _ & H)%rbind_ok. apply rbind_ok in H as (ys & Hy & [= <-]). rewrite !zlen_cons. by rewrite (IH ys).
Qed.
Lemma binarize_length strict p numeric w D labels D' labels' : binarize strict p numeric w D labels = Ok (D', labels') -> zlen D' = zlen D /\ zlen labels' = zlen labels.
Proof.
  unfold binarize. intros (D1 & H1 & H)%rbind_ok. assert (E1 : zlen D1 = zlen D).
  { clear H. revert D H1. induction numeric as [|i numeric IH]; intros D; cbn [rfold]; [by intros [= ->]|]. intros (D2 & H2 & H3)%rbind_ok. rewrite (IH D2 H3).
    unfold binarize_column in H2. apply rbind_ok in H2 as (c & _ & H2). apply rbind_ok in H2 as (q & _ & H2). by apply rmap_length in H2. }
  apply rbind_ok in H as (cs & _ & H). apply rbind_ok in H as (cols & _ & H). apply rbind_ok in H as (D2 & H2 & H). apply rmap_length in H2. injection H as <- <-. rewrite !zlen_map. lia.
Qed.
Lemma sparse_lengths lines l D L names : read_sparse lines l = Ok (D, L, names) -> zlen D = zlen L.
Proof.
  unfold read_sparse. intros ([attrs rest] & _ & H)%rbind_ok. apply rbind_ok in H as (ns & _ & H). cbv zeta in H. destruct (zlen rest <? 2); [done|].
  apply rbind_ok in H as (A & _ & H). injection H as <- <- _. by rewrite !zlen_map.
Qed.
Lemma dense_lengths fl lines l p D L names : read_dense fl lines l p = Ok (D, L, names) -> zlen D = zlen L.
Proof.
  unfold read_dense. intros ([attrs rest] & _ & H)%rbind_ok. apply rbind_ok in H as (nf & _ & H). apply rbind_ok in H as (ns & _ & H). cbv zeta in H. destruct (zlen rest <? 2); [done|].
  apply rbind_ok in H as (A & _ & H). unfold split_at in H. apply rbind_ok in H as ([D' L'] & HB & H). injection H as <- <- _. apply binarize_length in HB as [-> ->]. by rewrite !zlen_map.
Qed.
Lemma pre_iff files split : existsb has_train files || bool_decide (split = 0%Qc) = true <-> (exists f, f ∈ files /\ exists n, substring n 5 f = "train"%string) \/ split = 0%Qc.
Proof.
  rewrite orb_true_iff, existsb_train, !bool_decide_eq_true, list.Exists_exists. split; (intros [(f & H1 & H2)|H]; [left; exists f; split; [done|by apply has_train_iff]|by right]).
Qed.

Lemma C74_prepared_proof : forall fl open (files : list string) dir dataset n_labels sparsity split (sparse : bool) o,
  lacks "/" dataset -> (exists f, f ∈ files /\ exists n, substring n 5 f = "train"%string) \/ split = 0%Qc ->
  (sparse = true \/ dataset <> "genbase"%string) ->
  let path := (dir +:+ "/" +:+ dataset)%string in
  let read name := if sparse then read_sparse (open (path +:+ "/" +:+ dataset +:+ name)%string) n_labels
                   else read_dense fl (open (path +:+ "/" +:+ dataset +:+ name)%string) n_labels sparsity in
  can (read_data_arff fl open files path n_labels sparsity split sparse) o <->
  o = match read "-train.arff"%string, read "-test.arff"%string with
      | Err e, _ => Err e
      | Ok _, Err e => Err e
      | Ok (X, Y, _), Ok (X', Y', names) => Ok (X, Y, X', Y', names)
      end.
Proof.
  intros fl open files dir dataset l sparsity split sparse o Hd Hpre Hs path read. unfold read_data_arff. apply pre_iff in Hpre. rewrite Hpre.
  assert (List.last (py_split "/" path) "" = dataset)%string as -> by (by apply last_split).
  unfold read. clear read Hpre. destruct sparse.
  - destruct (read_sparse (open (path +:+ "/" +:+ dataset +:+ "-train.arff")%string) l) as [[[X Y] ns]|e]; [|done]. cbn [lift bind].
    destruct (read_sparse (open (path +:+ "/" +:+ dataset +:+ "-test.arff")%string) l) as [[[X' Y'] ns']|e]; done.
  - rewrite decide_False by naive_solver.
    destruct (read_dense fl (open (path +:+ "/" +:+ dataset +:+ "-train.arff")%string) l sparsity) as [[[X Y] ns]|e]; [|done]. cbn [lift bind].
    destruct (read_dense fl (open (path +:+ "/" +:+ dataset +:+ "-test.arff")%string) l sparsity) as [[[X' Y'] ns']|e]; done.
Qed.


Lemma C74_genbase_proof : forall fl open (files : list string) dir n_labels sparsity split o,
  (exists f, f ∈ files /\ exists n, substring n 5 f = "train"%string) \/ split = 0%Qc ->
  let path := (dir +:+ "/genbase")%string in
  let read name := read_genbase fl (open (path +:+ "/genbase" +:+ name)%string) n_labels sparsity in
  can (read_data_arff fl open files path n_labels sparsity split false) o <->
  o = match read "-train.arff"%string, read "-test.arff"%string with
      | Err e, _ => Err e
      | Ok _, Err e => Err e
      | Ok _, Ok _ => Err UnboundLocalError
      end.
Proof.
  intros fl open files dir l sparsity split o Hpre path read. unfold read_data_arff. apply pre_iff in Hpre. rewrite Hpre.
  assert (List.last (py_split "/" path) "" = "genbase")%string as ->.
  { unfold path. change "/genbase"%string with (String "/" "genbase"). apply last_split. cbv. intuition discriminate. }
  rewrite decide_True by done. unfold read. clear read Hpre. change (path +:+ "/genbase" +:+ "-train.arff")%string with (path +:+ "/" +:+ "genbase" +:+ "-train.arff")%string. change (path +:+ "/genbase" +:+ "-test.arff")%string with (path +:+ "/" +:+ "genbase" +:+ "-test.arff")%string.
  destruct (read_genbase fl (open (path +:+ "/" +:+ "genbase" +:+ "-train.arff")%string) l sparsity) as [[X Y]|e]; [|done]. cbn [lift bind].
  destruct (read_genbase fl (open (path +:+ "/" +:+ "genbase" +:+ "-test.arff")%string) l sparsity) as [[X' Y']|e]; done.
Qed.


Lemma C74_split_proof : forall fl open (files : list string) dir dataset n_labels sparsity split (sparse : bool) o,
  lacks "/" dataset -> (forall f n, f ∈ files -> substring n 5 f <> "train"%string) -> split <> 0%Qc ->
  let path := (dir +:+ "/" +:+ dataset)%string in
  let text := open (path +:+ "/" +:+ dataset +:+ ".arff")%string in
  let read := if sparse then read_sparse text n_labels else read_dense fl text n_labels sparsity in
  (forall e, read = Err e -> can (read_data_arff fl open files path n_labels sparsity split sparse) o <-> o = Err e) /\
  (forall X Y names k, read = Ok (X, Y, names) -> X <> [] ->
     0 <= k -> (Qc_of_Z k <= split * Qc_of_Z (zlen X))%Qc -> (split * Qc_of_Z (zlen X) < Qc_of_Z (k + 1))%Qc ->
     can (read_data_arff fl open files path n_labels sparsity split sparse) o <->
     exists idx, zlen idx = k /\ (forall i, i ∈ idx -> 0 <= i < zlen X) /\
       o = Ok (select X idx, select Y idx, select X (mirror (zlen X) idx), select Y (mirror (zlen X) idx), names)).
Proof.
  intros fl open files dir dataset l sparsity split sparse o Hd Hno Hs path text read. unfold read_data_arff.
  assert (existsb has_train files || bool_decide (split = 0%Qc) = false) as ->.
  { apply not_true_iff_false. rewrite pre_iff. intros [(f & Hf & n & Hn)|?]; [|done]. by apply (Hno f n). }
  assert (List.last (py_split "/" path) "" = dataset)%string as -> by (by apply last_split).
  assert (Er : (if sparse then read_sparse (open (String.append path (String.append "/" (String.append dataset ".arff")))) l
           else read_dense fl (open (String.append path (String.append "/" (String.append dataset ".arff")))) l sparsity) = read) by done.
  rewrite Er. assert (Hlen : forall X Y names, read = Ok (X, Y, names) -> zlen X = zlen Y).
  { intros X Y names. unfold read. destruct sparse; [apply sparse_lengths|apply dense_lengths]. }
  clearbody read. clear Er. split.
  - intros e ->. done.
  - intros X Y names k -> Hne Hk H1 H2. cbn [lift bind]. specialize (Hlen _ _ _ eq_refl). rewrite can_bind. split.
    + intros (a & Ha & Ho). apply (C52_mirror_proof _ _ X Y split k a Hlen Hne Hk H1 H2) in Ha as (idx & P1 & P2 & P3 & P4 & ->). cbn in Ho. exists idx. by split_and!.
    + intros (idx & P1 & P2 & ->). exists (Ok (select X idx, select Y idx, select X (mirror (zlen X) idx), select Y (mirror (zlen X) idx))). split; [|done].
      apply (C52_mirror_proof _ _ X Y split k _ Hlen Hne Hk H1 H2). exists idx. split_and!; try done.
      * unfold zlen. rewrite length_select by done. done.
      * unfold zlen at 1. rewrite length_select; [unfold mirror; rewrite map_length; done|]. intros i (j & -> & Hj%P2)%elem_of_map. lia.
Qed.
