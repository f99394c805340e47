(** Proofs of the property theorems of Properties/P_Files.v. *)
From Coq Require Import String.
From stdpp Require Import strings.
From Verif.Model Require Import PyBase PyState Helpers.
From Verif.Spec Require Import SFiles.
Open Scope string_scope.
Open Scope list_scope.
Open Scope Z_scope.
From Verif.Proofs Require Import PBase.
Open Scope string_scope.
Open Scope list_scope.
Open Scope Z_scope.

Lemma at_snoc s (l : list string) x : at_ s (l ++ [x]) = s !! (l ++ [x]).
Proof. by destruct l. Qed.
Lemma snoc_not_nil {A} (l : list A) x : l ++ [x] <> [].
Proof. by destruct l. Qed.

Lemma prefix_snoc_iff (l k : list string) x : l `prefix_of` k ++ [x] <-> l = k ++ [x] \/ l `prefix_of` k.
Proof.
  split.
  - intros [r E]. destruct r as [|y r _] using rev_ind; [left; by rewrite app_nil_r in E|].
    right. rewrite app_assoc in E. apply app_inj_tail in E as [-> _]. by exists r.
  - intros [->|H]; [done|]. by apply prefix_app_r.
Qed.
Lemma snoc_not_prefix (k : list string) x : ~ k ++ [x] `prefix_of` k.
Proof. intros H. apply prefix_length in H. rewrite app_length in H. cbn in H. lia. Qed.

Lemma above_dir s l e : wf_fs s -> at_ s l = Some e -> forall l', l' `prefix_of` l -> l' = l \/ at_ s l' = Some Dir.
Proof.
  intros Hwf. revert e. induction l as [|x l IH] using rev_ind; intros e He l' Hp.
  - apply prefix_nil_inv in Hp as ->. by left.
  - apply prefix_snoc_iff in Hp as [->|Hp]; [by left|]. right. rewrite at_snoc in He.
    destruct (Hwf _ _ He) as (d & y & E & Hd). apply app_inj_tail in E as [<- <-].
    destruct (IH _ Hd _ Hp) as [->|H]; done.
Qed.

Lemma at_insert s (l : list string) x e k : at_ (<[l ++ [x] := e]> s) k = if decide (k = l ++ [x]) then Some e else at_ s k.
Proof.
  destruct (decide (k = l ++ [x])) as [->|Hne]; [by rewrite at_snoc, lookup_insert|].
  destruct k; [done|]. cbn. by rewrite lookup_insert_ne.
Qed.

Lemma wf_insert s l x e : wf_fs s -> at_ s l = Some Dir -> (e = Dir \/ at_ s (l ++ [x]) <> Some Dir) -> wf_fs (<[l ++ [x] := e]> s).
Proof.
  intros Hwf Hl He k e' Hk. apply lookup_insert_Some in Hk as [[<- <-]|[Hne Hk]].
  - exists l, x. split; [done|]. rewrite at_insert. destruct (decide _) as [E|]; [|done].
    exfalso. apply (f_equal length) in E. rewrite app_length in E. cbn in E. lia.
  - destruct (Hwf _ _ Hk) as (d & y & -> & Hd). exists d, y. split; [done|]. rewrite at_insert.
    destruct (decide _) as [->|]; [|done]. destruct He as [->|He]; [done|by destruct He].
Qed.

Lemma mkdir_ok s l x : at_ s l = Some Dir -> at_ s (l ++ [x]) = None -> mkdir (l ++ [x]) s = (Ok tt, <[l ++ [x] := Dir]> s).
Proof. intros Hd Hn. unfold mkdir, sbind, sget. cbn beta iota. change lookup_path with at_. rewrite removelast_last, Hn, Hd. done. Qed.
Lemma mkdir_err s l x : at_ s l <> Some Dir \/ at_ s (l ++ [x]) <> None -> mkdir (l ++ [x]) s = (Err GenericException, s).
Proof.
  intros H. unfold mkdir, sbind, sget. cbn beta iota. change lookup_path with at_. rewrite removelast_last.
  destruct (at_ s (l ++ [x])) eqn:E1, (at_ s l) as [[|]|] eqn:E2; try done. destruct H; done.
Qed.

Lemma mkdir_with s l x : wf_fs s -> at_ s l = Some Dir -> at_ s (l ++ [x]) = None ->
  with_dir s (<[l ++ [x] := Dir]> s) (l ++ [x]) /\ wf_fs (<[l ++ [x] := Dir]> s).
Proof.
  intros Hwf Hd Hn. split; [|apply wf_insert; [done..|by left]]. intros k. rewrite at_insert, prefix_snoc_iff. split.
  - intros [->|Hk]; [by rewrite decide_True|]. destruct (decide _); [done|]. destruct (above_dir _ _ _ Hwf Hd _ Hk) as [->|]; done.
  - intros Hk. rewrite decide_False; [done|]. tauto.
Qed.

(** the parent exists *)
Lemma mkdir_parent s l x e : wf_fs s -> at_ s l = Some e -> at_ s (l ++ [x]) = None ->
  (no_file_above s (l ++ [x]) -> exists s', mkdir (l ++ [x]) s = (Ok tt, s') /\ with_dir s s' (l ++ [x]) /\ wf_fs s') /\
  (~ no_file_above s (l ++ [x]) -> mkdir (l ++ [x]) s = (Err GenericException, s)).
Proof.
  intros Hwf He Hn. split; intros H.
  - assert (at_ s l = Some Dir) as Hd. { destruct e as [|c]; [done|]. destruct (H l c); [by apply prefix_app_r|done]. }
    eexists. split; [by apply mkdir_ok|]. by apply mkdir_with.
  - apply mkdir_err. left. intros Hd. apply H. intros k c Hk Hf. apply prefix_snoc_iff in Hk as [->|Hk]; [congruence|].
    destruct (above_dir _ _ _ Hwf Hd _ Hk) as [->|]; congruence.
Qed.

Lemma makedirs_spec n : forall s base rest, wf_fs s -> at_ s base <> None -> length rest = S n -> at_ s (base ++ rest) = None ->
  (no_file_above s (base ++ rest) -> exists s', makedirs n (base ++ rest) s = (Ok tt, s') /\ with_dir s s' (base ++ rest) /\ wf_fs s') /\
  (~ no_file_above s (base ++ rest) -> makedirs n (base ++ rest) s = (Err GenericException, s)).
Proof.
  induction n as [|n IH]; intros s base rest Hwf Hb Hlen Hn.
  - destruct rest as [|x [|]]; try done. cbn [makedirs]. destruct (at_ s base) as [e|] eqn:He; [|done].
    by apply (mkdir_parent s base x e).
  - destruct rest as [|x rest _] using rev_ind; [done|]. rewrite app_length in Hlen. cbn [length] in Hlen.
    rewrite app_assoc in *. set (l := base ++ rest) in *. cbn [makedirs]. unfold sbind, sget. cbn beta iota.
    change lookup_path with at_. rewrite removelast_last. destruct (at_ s l) as [e|] eqn:He.
    + cbn [sret]. unfold sret. by apply (mkdir_parent s l x e).
    + destruct (IH s base rest Hwf Hb ltac:(lia) He) as [H1 H2]. fold l in H1, H2. split; intros H.
      * destruct H1 as (s1 & E1 & W1 & F1).
        { intros k c Hk. apply H. by apply prefix_app_r. }
        rewrite E1. assert (Hd : at_ s1 l = Some Dir) by by apply W1.
        assert (Hn1 : at_ s1 (l ++ [x]) = None). { destruct (W1 (l ++ [x])) as [_ W]. rewrite W; [done|apply snoc_not_prefix]. }
        eexists. split; [by apply mkdir_ok|]. destruct (mkdir_with s1 l x F1 Hd Hn1) as [W2 F2]. split; [|done].
        intros k. destruct (W2 k) as [A B]. split; [done|]. intros Hk. rewrite B by done. apply W1.
        intros C. apply Hk, prefix_app_r, C.
      * rewrite H2; [done|]. intros C. apply H. intros k c Hk Hf. apply prefix_snoc_iff in Hk as [->|Hk]; [congruence|].
        by apply (C k c).
Qed.

(** The directory that makedir(d, usedir) has to make. *)
Lemma makedir_spec cwd s abs ds : wf_fs s -> at_ s cwd = Some Dir -> abs = true \/ ds <> [] ->
  let m := let^ s := sget in if negb (exists_ cwd s (Path abs ds)) then os_makedirs cwd (Path abs ds) else sret tt in
  let t := place cwd abs ds in
  (no_file_above s t -> exists s', m s = (Ok tt, s') /\ with_dir s s' t /\ wf_fs s') /\
  (at_ s t <> None -> m s = (Ok tt, s)) /\
  (at_ s t = None -> ~ no_file_above s t -> m s = (Err GenericException, s)).
Proof.
  intros Hwf Hc Hp m t.
  assert (Hx : exists_ cwd s (Path abs ds) = match at_ s t with Some _ => true | None => false end).
  { unfold exists_, resolve, t, place. cbn [p_abs p_parts]. destruct abs; [done|]. destruct ds; [destruct Hp; done|done]. }
  assert (Hm : m s = match at_ s t with Some _ => (Ok tt, s) | None => os_makedirs cwd (Path abs ds) s end).
  { unfold m, sbind, sget. cbn beta iota. rewrite Hx. by destruct (at_ s t). }
  destruct (at_ s t) as [e|] eqn:Ht.
  - rewrite Hm. split; [|done]. intros Hnf. exists s. split; [done|]. split; [|done]. intros k. split; [|done].
    intros Hk. destruct (above_dir _ _ _ Hwf Ht _ Hk) as [->|]; [|done]. destruct e as [|c]; [done|]. by destruct (Hnf t c).
  - assert (Hne : ds <> []). { intros ->. destruct Hp as [->|]; done. }
    assert (Hr : os_makedirs cwd (Path abs ds) = makedirs (length ds - 1) t).
    { unfold os_makedirs, t, place, resolve. cbn [p_abs p_parts]. destruct abs; [by destruct ds|]. by destruct ds. }
    rewrite Hm, Hr. assert (Hl : length ds = S (length ds - 1)) by (destruct ds; cbn; [done|lia]).
    assert (exists base, at_ s base <> None /\ t = base ++ ds) as (base & Hb & Et).
    { unfold t, place. destruct abs; [by exists []|]. exists cwd. split; [congruence|done]. }
    rewrite Et in *. destruct (makedirs_spec (length ds - 1) s base ds Hwf Hb Hl Ht) as [H1 H2].
    split; [exact H1|]. split; [done|]. intros _. exact H2.
Qed.

Definition dir_arg (p : path) (usedir : bool) (abs : bool) (ds : list string) : Prop :=
  if usedir then exists name, p = Path abs (ds ++ [name]) else p = Path abs ds.
Lemma C95_makedir_proof : forall (cwd : list string) (s : fs) (p : path) (usedir abs : bool) (ds : list string),
  wf_fs s -> at_ s cwd = Some Dir ->
  (if usedir then exists name, p = Path abs (ds ++ [name]) else p = Path abs ds) ->
  let t := place cwd abs ds in
  (abs = false -> ds = [] -> makedir cwd p usedir s = (Err GenericException, s)) /\
  (abs = true \/ ds <> [] ->
    (no_file_above s t -> exists s', makedir cwd p usedir s = (Ok tt, s') /\ with_dir s s' t /\ wf_fs s') /\
    (forall c, at_ s t = Some (File c) -> makedir cwd p usedir s = (Ok tt, s)) /\
    (forall l c, l `prefix_of` t -> l <> t -> at_ s l = Some (File c) -> makedir cwd p usedir s = (Err GenericException, s))).
Proof.
  intros cwd s p usedir abs ds Hwf Hc Hp t.
  assert (Hd : (if usedir then dirname p else p) = Path abs ds).
  { destruct usedir; [|done]. destruct Hp as [name ->]. unfold dirname. cbn [p_abs p_parts]. by rewrite removelast_last. }
  unfold makedir. rewrite Hd. split.
  - intros -> ->. done.
  - intros Hne. destruct (makedir_spec cwd s abs ds Hwf Hc Hne) as (H1 & H2 & H3). fold t in H1, H2, H3. split; [exact H1|]. split.
    + intros c Hf. apply H2. by rewrite Hf.
    + intros l c Hl Hlt Hf. apply H3.
      * destruct (at_ s t) as [e|] eqn:E; [|done]. destruct (above_dir _ _ _ Hwf E _ Hl); congruence.
      * intros C. by apply (C l c).
Qed.


Lemma write_ok cwd s abs ds name c : at_ s (place cwd abs ds) = Some Dir -> at_ s (place cwd abs ds ++ [name]) <> Some Dir ->
  write_file cwd c (Path abs (ds ++ [name])) s = (Ok tt, <[place cwd abs ds ++ [name] := File c]> s).
Proof.
  intros Hd Hn. unfold write_file, sbind, sget. cbn beta iota.
  assert (Hr : resolve cwd (Path abs (ds ++ [name])) = place cwd abs ds ++ [name]).
  { unfold resolve, place. cbn [p_abs p_parts]. destruct abs; [done|by rewrite app_assoc]. }
  cbn [p_abs p_parts]. change lookup_path with at_. rewrite Hr, removelast_last, Hd.
  destruct (ds ++ [name]) eqn:E; [by apply snoc_not_nil in E|].
  destruct abs; destruct (at_ s (_ ++ [name])) as [[|]|]; done.
Qed.

Lemma write_err cwd s abs ds name c : at_ s (place cwd abs ds) <> Some Dir \/ at_ s (place cwd abs ds ++ [name]) = Some Dir ->
  write_file cwd c (Path abs (ds ++ [name])) s = (Err GenericException, s).
Proof.
  intros H. unfold write_file, sbind, sget. cbn beta iota.
  assert (Hr : resolve cwd (Path abs (ds ++ [name])) = place cwd abs ds ++ [name]).
  { unfold resolve, place. cbn [p_abs p_parts]. destruct abs; [done|by rewrite app_assoc]. }
  cbn [p_abs p_parts]. change lookup_path with at_. rewrite Hr, removelast_last.
  destruct (ds ++ [name]) eqn:E; [by apply snoc_not_nil in E|].
  destruct abs; destruct (at_ s (_ ++ [name])) as [[|]|], (at_ s (place _ _ _)) as [[|]|]; try done; destruct H; done.
Qed.

Lemma read_ok cwd s abs ds name c : at_ s (place cwd abs ds ++ [name]) = Some (File c) ->
  read_file cwd (Path abs (ds ++ [name])) s = (Ok c, s).
Proof.
  intros Hd. unfold read_file, sbind, sget. cbn beta iota.
  assert (Hr : resolve cwd (Path abs (ds ++ [name])) = place cwd abs ds ++ [name]).
  { unfold resolve, place. cbn [p_abs p_parts]. destruct abs; [done|by rewrite app_assoc]. }
  cbn [p_abs p_parts]. change lookup_path with at_. rewrite Hr, Hd.
  destruct (ds ++ [name]) eqn:E; [by apply snoc_not_nil in E|]. by destruct abs.
Qed.

Lemma C95_save_load_proof : forall (A : Type) (dumps : A -> result string) (loads : string -> result A)
  (cwd : list string) (s : fs) (abs : bool) (ds : list string) (name : string) (obj : A),
  wf_fs s -> at_ s cwd = Some Dir -> abs = true \/ ds <> [] ->
  let p := Path abs (ds ++ [name]) in
  let d := place cwd abs ds in
  no_file_above s d -> at_ s (d ++ [name]) <> Some Dir ->
  exists s', (let^ _ := makedir cwd p true in save_json cwd dumps obj p) s =
      (match dumps obj with Ok _ => Ok tt | Err e => Err e end, s') /\ wf_fs s' /\
    at_ s' (d ++ [name]) = Some (File (match dumps obj with Ok c => c | Err _ => "" end)) /\
    (forall l, l `prefix_of` d -> at_ s' l = Some Dir) /\
    (forall l, ~ l `prefix_of` d ++ [name] -> at_ s' l = at_ s l) /\
    (forall c, dumps obj = Ok c -> load_pickle cwd loads p s' = (loads c, s')).
Proof.
  intros A dumps loads cwd s abs ds name obj Hwf Hc Hp p d Hnf Hnd.
  destruct (C95_makedir_proof cwd s p true abs ds Hwf Hc (ex_intro _ name eq_refl)) as [_ H].
  destruct (H Hp) as [H1 _]. destruct (H1 Hnf) as (s1 & E1 & W1 & F1). clear H H1. fold d in W1.
  assert (Hd1 : at_ s1 d = Some Dir) by by apply W1.
  assert (Hn1 : at_ s1 (d ++ [name]) <> Some Dir).
  { destruct (W1 (d ++ [name])) as [_ B]. rewrite B; [done|apply snoc_not_prefix]. }
  set (s2 := <[d ++ [name] := File ""]> s1).
  assert (F2 : wf_fs s2) by (apply wf_insert; [done..|by right]).
  assert (Hd2 : at_ s2 d = Some Dir).
  { unfold s2. rewrite at_insert, decide_False; [done|]. intros C. apply (snoc_not_prefix d name). by rewrite <- C. }
  assert (Hn2 : at_ s2 (d ++ [name]) <> Some Dir) by (unfold s2; by rewrite at_insert, decide_True).
  assert (E2 : write_file cwd "" p s1 = (Ok tt, s2)) by by apply write_ok.
  assert (Hother : forall e l, ~ l `prefix_of` d ++ [name] -> at_ (<[d ++ [name] := e]> s2) l = at_ s l).
  { intros e l Hl. rewrite prefix_snoc_iff in Hl. unfold s2. rewrite !at_insert, !decide_False by tauto. apply W1. tauto. }
  assert (Habove : forall e l, l `prefix_of` d -> at_ (<[d ++ [name] := e]> s2) l = Some Dir).
  { intros e l Hl. unfold s2. rewrite !at_insert, !decide_False; [by apply W1| |]; intros ->; by apply snoc_not_prefix in Hl. }
  unfold save_json, sbind at 1. rewrite E1. unfold sbind. rewrite E2. unfold slift. destruct (dumps obj) as [c|e].
  - exists (<[d ++ [name] := File c]> s2). split; [apply write_ok; done|]. split; [apply wf_insert; [done..|by right]|].
    split; [by rewrite at_insert, decide_True|]. split; [apply Habove|]. split; [apply Hother|]. intros c' [= <-].
    unfold load_pickle, sbind. unfold p. rewrite (read_ok cwd _ abs ds name c); [done|]. fold d. by rewrite at_insert, decide_True.
  - exists s2. split; [done|]. split; [done|]. split; [unfold s2; by rewrite at_insert, decide_True|].
    assert (s2 = <[d ++ [name] := File ""]> s2) as E by (unfold s2; by rewrite insert_insert).
    split; [rewrite E; apply Habove|]. split; [rewrite E; apply Hother|]. done.
Qed.


Lemma C95_save_file_proof : forall (A : Type) (loads : string -> result A) (cwd : list string) (s : fs) (abs : bool) (ds : list string)
  (name c : string), wf_fs s ->
  let p := Path abs (ds ++ [name]) in
  let d := place cwd abs ds in
  (at_ s d = Some Dir /\ at_ s (d ++ [name]) <> Some Dir ->
    exists s', save_file cwd c p s = (Ok tt, s') /\ wf_fs s' /\ at_ s' (d ++ [name]) = Some (File c) /\
      (forall l, l <> d ++ [name] -> at_ s' l = at_ s l)) /\
  (~ (at_ s d = Some Dir /\ at_ s (d ++ [name]) <> Some Dir) -> save_file cwd c p s = (Err GenericException, s)) /\
  ((forall c, at_ s (d ++ [name]) <> Some (File c)) -> load_pickle cwd loads p s = (Err GenericException, s)) /\
  (forall c, at_ s (d ++ [name]) = Some (File c) -> load_pickle cwd loads p s = (loads c, s)).
Proof.
  intros A loads cwd s abs ds name c Hwf p d. split; [|split; [|split]].
  - intros [Hd Hn]. eexists. split; [by apply write_ok|]. split; [apply wf_insert; [done..|by right]|].
    split; [by rewrite at_insert, decide_True|]. intros l Hl. by rewrite at_insert, decide_False.
  - intros H. apply write_err. fold d. destruct (at_ s d) as [[|]|] eqn:E1; [|by left..].
    destruct (at_ s (d ++ [name])) as [[|]|] eqn:E2; [by right|exfalso; apply H; done..].
  - intros H. unfold load_pickle, read_file, sbind, sget. cbn beta iota.
    assert (Hr : resolve cwd p = d ++ [name]).
    { unfold resolve, d, place. cbn [p_abs p_parts p]. destruct abs; [done|by rewrite app_assoc]. }
    change lookup_path with at_. rewrite Hr. destruct (at_ s (d ++ [name])) as [[|c']|] eqn:E; [|by destruct (H c')|];
      unfold p; cbn [p_abs p_parts]; destruct abs; destruct (ds ++ [name]); done.
  - intros c' Hf. unfold load_pickle, sbind. unfold p. by rewrite (read_ok cwd _ abs ds name c').
Qed.


Lemma C95_tempdir_proof : forall (cwd : list string) (tmp : path) (fresh : fs -> list string -> string) (dir : option path) (s : fs),
  wf_fs s -> at_ s cwd = Some Dir -> at_ s (place cwd (p_abs tmp) (p_parts tmp)) = Some Dir ->
  (forall s d, s !! (d ++ [fresh s d]) = None) ->
  let d := match dir with Some p => p | None => tmp end in
  let t := place cwd (p_abs d) (p_parts d) in
  (dir <> Some (Path false []) -> no_file_above s t ->
    exists s' x, get_tempdir cwd tmp fresh dir s = (Ok (t ++ [x]), s') /\ wf_fs s' /\
      at_ s (t ++ [x]) = None /\ at_ s' (t ++ [x]) = Some Dir /\ (forall y, at_ s' (t ++ [x] ++ [y]) = None) /\
      (forall l, l `prefix_of` t -> at_ s' l = Some Dir) /\
      (forall l, ~ l `prefix_of` t ++ [x] -> at_ s' l = at_ s l)) /\
  (dir = Some (Path false []) \/ ~ no_file_above s t -> get_tempdir cwd tmp fresh dir s = (Err GenericException, s)).
Proof.
  intros cwd tmp fresh dir s Hwf Hc Htmp Hfresh d t.
  assert (Hrun : get_tempdir cwd tmp fresh dir s =
    match (match dir with Some p => makedir cwd p false s | None => (Ok tt, s) end) with
    | (Ok _, s1) => match mkdir (t ++ [fresh s1 t]) s1 with (Ok _, s2) => (Ok (t ++ [fresh s1 t]), s2) | (Err e, s2) => (Err e, s2) end
    | (Err e, s1) => (Err e, s1) end).
  { unfold get_tempdir, sbind, sget. destruct dir as [p|]; cbn [default]; [|done]. by destruct (makedir cwd p false s) as [[] ]. }
  split.
  - intros Hne Hnf.
    assert (exists s1, (match dir with Some p => makedir cwd p false s | None => (Ok tt, s) end) = (Ok tt, s1) /\ with_dir s s1 t /\ wf_fs s1) as (s1 & E1 & W1 & F1).
    { destruct dir as [[abs ds]|].
      - destruct (C95_makedir_proof cwd s (Path abs ds) false abs ds Hwf Hc eq_refl) as [_ H].
        apply H; [|done]. destruct abs; [by left|]. right. intros ->. by apply Hne.
      - exists s. split; [done|]. split; [|done]. intros k. split; [|done]. intros Hk.
        destruct (above_dir _ _ _ Hwf Htmp _ Hk) as [->|]; done. }
    rewrite E1 in Hrun. set (x := fresh s1 t) in *.
    assert (Hd1 : at_ s1 t = Some Dir) by by apply W1.
    assert (Hn1 : at_ s1 (t ++ [x]) = None) by (rewrite at_snoc; apply Hfresh).
    rewrite (mkdir_ok s1 t x Hd1 Hn1) in Hrun. destruct (mkdir_with s1 t x F1 Hd1 Hn1) as [W2 F2].
    eexists _, x. split; [exact Hrun|]. split; [done|]. split; [|split; [by apply W2|split; [|split]]].
    + destruct (W1 (t ++ [x])) as [_ B]. rewrite <- B; [done|apply snoc_not_prefix].
    + intros y. rewrite app_assoc. destruct (W2 ((t ++ [x]) ++ [y])) as [_ B]. rewrite B by apply snoc_not_prefix.
      destruct (at_ s1 ((t ++ [x]) ++ [y])) as [e|] eqn:E; [|done]. exfalso.
      destruct (above_dir _ _ _ F1 E (t ++ [x])) as [C|C]; [by apply prefix_app_r| |congruence].
      apply (snoc_not_prefix (t ++ [x]) y). by rewrite <- C.
    + intros l Hl. apply W2. by apply prefix_app_r.
    + intros l Hl. destruct (W2 l) as [_ B]. rewrite B by done. apply W1. intros C. by apply Hl, prefix_app_r.
  - intros H. rewrite Hrun. clear Hrun. destruct dir as [[abs ds]|].
    + destruct (C95_makedir_proof cwd s (Path abs ds) false abs ds Hwf Hc eq_refl) as [H0 H1].
      destruct (decide (abs = false /\ ds = [])) as [[-> ->]|Hne]; [by rewrite H0|].
      assert (Hne' : abs = true \/ ds <> []). { destruct abs; [by left|]. right. intros ->. by apply Hne. }
      destruct H as [H|H]; [injection H as -> ->; by destruct Hne|].
      destruct (makedir_spec cwd s abs ds Hwf Hc Hne') as (_ & A2 & A3). fold t in A2, A3.
      change (place cwd abs ds) with t in A2, A3. unfold makedir. destruct (at_ s t) as [e|] eqn:Et.
      * rewrite A2 by done. rewrite mkdir_err; [done|]. left. intros Hd. apply H. intros l c Hl Hf.
        destruct (above_dir _ _ _ Hwf Hd _ Hl) as [->|]; congruence.
      * rewrite A3; done.
    + destruct H as [H|H]; [done|]. exfalso. apply H. intros l c Hl Hf. destruct (above_dir _ _ _ Hwf Htmp _ Hl) as [->|]; [|congruence].
      unfold t, d in Hf. congruence.
Qed.
