(** Directories and files of the helpers makedir, save_*, load_pickle and get_tempdir (C95). *)
From Coq Require Import String.
From stdpp Require Import strings.
From Verif.Model Require Import PyBase PyState Helpers.
From Verif.Spec Require Import SFiles.
Open Scope string_scope.
Open Scope list_scope.
Open Scope Z_scope.
From Verif.Proofs Require Import T_Files.
Open Scope string_scope.
Open Scope list_scope.
Open Scope Z_scope.

(** C95, makedir: of the directory of a file (usedir=True) or of a path. Where no file is in the way, the directory and all above it
    exist afterwards and nothing else has changed; a file above it makes it raise without creating anything; if a file is at the
    place of the directory itself, it returns silently. For the name of a file without a directory it raises. *)
Theorem C95_makedir : forall (cwd : list string) (s : fs) (p : path) (usedir abs : bool) (ds : list string),
  wf_fs s -> at_ s cwd = Some Dir ->
  (if usedir then exists name, p = Path abs (ds ++ [name]) else p = Path abs ds) ->
  let t := place cwd abs ds in
  (abs = false -> ds = [] -> makedir cwd p usedir s = (Err GenericException, s)) /\
  (abs = true \/ ds <> [] ->
    (no_file_above s t -> exists s', makedir cwd p usedir s = (Ok tt, s') /\ with_dir s s' t /\ wf_fs s') /\
    (forall c, at_ s t = Some (File c) -> makedir cwd p usedir s = (Ok tt, s)) /\
    (forall l c, l `prefix_of` t -> l <> t -> at_ s l = Some (File c) -> makedir cwd p usedir s = (Err GenericException, s))).
Proof. exact C95_makedir_proof. Qed.
Print Assumptions C95_makedir.

(** C95, makedir and save_json (or save_pickle) of an output path as the scripts do it: if no file is in the way and the path is no
    directory, the file holds the dumped object afterwards, and nothing else has changed except that its directories exist; loading
    gives what the format reads back. If the object cannot be dumped, the exception is passed on and the file, even one that had a
    content, is left empty. *)
Theorem C95_save_load : forall (A : Type) (dumps : A -> result string) (loads : string -> result A)
  (cwd : list string) (s : fs) (abs : bool) (ds : list string) (name : string) (obj : A),
  wf_fs s -> at_ s cwd = Some Dir -> abs = true \/ ds <> [] ->
  let p := Path abs (ds ++ [name]) in
  let d := place cwd abs ds in
  no_file_above s d -> at_ s (d ++ [name]) <> Some Dir ->
  exists s', (let^ _ := makedir cwd p true in save_json cwd dumps obj p) s =
      (match dumps obj with Ok _ => Ok tt | Err e => Err e end, s') /\ wf_fs s' /\
    at_ s' (d ++ [name]) = Some (File (match dumps obj with Ok c => c | Err _ => "" end)) /\
    (forall l, l `prefix_of` d -> at_ s' l = Some Dir) /\
    (forall l, ~ l `prefix_of` d ++ [name] -> at_ s' l = at_ s l) /\
    (forall c, dumps obj = Ok c -> load_pickle cwd loads p s' = (loads c, s')).
Proof. exact C95_save_load_proof. Qed.
Print Assumptions C95_save_load.

(** C95, save_file and load_pickle alone: save_file works exactly if the directory exists and the path is no directory, then it
    overwrites the file and changes nothing else; otherwise it raises and changes nothing. Loading a path that is no file raises. *)
Theorem C95_save_file : forall (A : Type) (loads : string -> result A) (cwd : list string) (s : fs) (abs : bool) (ds : list string)
  (name c : string), wf_fs s ->
  let p := Path abs (ds ++ [name]) in
  let d := place cwd abs ds in
  (at_ s d = Some Dir /\ at_ s (d ++ [name]) <> Some Dir ->
    exists s', save_file cwd c p s = (Ok tt, s') /\ wf_fs s' /\ at_ s' (d ++ [name]) = Some (File c) /\
      (forall l, l <> d ++ [name] -> at_ s' l = at_ s l)) /\
  (~ (at_ s d = Some Dir /\ at_ s (d ++ [name]) <> Some Dir) -> save_file cwd c p s = (Err GenericException, s)) /\
  ((forall c, at_ s (d ++ [name]) <> Some (File c)) -> load_pickle cwd loads p s = (Err GenericException, s)) /\
  (forall c, at_ s (d ++ [name]) = Some (File c) -> load_pickle cwd loads p s = (loads c, s)).
Proof. exact C95_save_file_proof. Qed.
Print Assumptions C95_save_file.

(** C95, get_tempdir: the result is a new empty directory inside the given one, which is created if needed (inside the default one if
    none is given); nothing else changes. A file at or above the place of the given directory makes it raise. *)
Theorem C95_tempdir : forall (cwd : list string) (tmp : path) (fresh : fs -> list string -> string) (dir : option path) (s : fs),
  wf_fs s -> at_ s cwd = Some Dir -> at_ s (place cwd (p_abs tmp) (p_parts tmp)) = Some Dir ->
  (forall s d, s !! (d ++ [fresh s d]) = None) ->
  let d := match dir with Some p => p | None => tmp end in
  let t := place cwd (p_abs d) (p_parts d) in
  (dir <> Some (Path false []) -> no_file_above s t ->
    exists s' x, get_tempdir cwd tmp fresh dir s = (Ok (t ++ [x]), s') /\ wf_fs s' /\
      at_ s (t ++ [x]) = None /\ at_ s' (t ++ [x]) = Some Dir /\ (forall y, at_ s' (t ++ [x] ++ [y]) = None) /\
      (forall l, l `prefix_of` t -> at_ s' l = Some Dir) /\
      (forall l, ~ l `prefix_of` t ++ [x] -> at_ s' l = at_ s l)) /\
  (dir = Some (Path false []) \/ ~ no_file_above s t -> get_tempdir cwd tmp fresh dir s = (Err GenericException, s)).
Proof. exact C95_tempdir_proof. Qed.
Print Assumptions C95_tempdir.

(** A current directory /home with a file and a directory. *)
Definition exFs : fs := <[["home"; "notes"] := File "n"]> (<[["home"; "out"] := Dir]> (<[["home"] := Dir]> ∅)).
Example ex_wf : wf_fs exFs.
Proof.
  intros l e H. unfold exFs in H. rewrite !lookup_insert_Some, lookup_empty in H.
  destruct H as [[<- _]|[_ [[<- _]|[_ [[<- _]|[_ H]]]]]]; [..|done].
  - by exists ["home"], "notes".
  - by exists ["home"], "out".
  - by exists [], "home".
Qed.
Example ex_hyps : at_ exFs ["home"] = Some Dir /\ at_ exFs ["home"; "res"; "a"; "perf.json"] <> Some Dir /\
  no_file_above exFs ["home"; "res"; "a"].
Proof.
  split; [done|]. split; [done|]. intros l c [r E] H.
  destruct l as [|a [|b [|e [|f l]]]]; cbn in E; simplify_eq; vm_compute in H; discriminate H.
Qed.
Definition exDumps (n : Z) : result string := if n <? 0 then Err TypeError else Ok (if n =? 7 then "7" else "0").
Definition exLoads (c : string) : result Z := Ok (if String.eqb c "7" then 7 else 0).
Definition exP := Path false ["res"; "a"; "perf.json"].
Definition exRun := (let^ _ := makedir ["home"] exP true in save_json ["home"] exDumps 7 exP) exFs.
Example C95_ex : fst exRun = Ok tt /\
  at_ (snd exRun) ["home"; "res"] = Some Dir /\ at_ (snd exRun) ["home"; "res"; "a"; "perf.json"] = Some (File "7") /\
  fst (load_pickle ["home"] exLoads exP (snd exRun)) = Ok 7 /\ at_ (snd exRun) ["home"; "notes"] = Some (File "n").
Proof. split_and?; vm_compute; reflexivity. Qed.
(** an output path without a directory; a file in the way; a file at the place of the directory; an object that cannot be dumped *)
Example C95_ex_bare : fst (makedir ["home"] (Path false ["perf.json"]) true exFs) = Err GenericException.
Proof. split_and?; vm_compute; reflexivity. Qed.
Example C95_ex_blocked : fst (makedir ["home"] (Path false ["notes"; "a"; "x"]) true exFs) = Err GenericException /\
  fst (makedir ["home"] (Path false ["notes"; "x"]) true exFs) = Ok tt.
Proof. split_and?; vm_compute; reflexivity. Qed.
Definition exRun2 := save_json ["home"] exDumps (-1) (Path false ["notes"]) exFs.
Example C95_ex_emptied : fst exRun2 = Err TypeError /\ at_ (snd exRun2) ["home"; "notes"] = Some (File "").
Proof. split_and?; vm_compute; reflexivity. Qed.
Definition exRun3 := save_file ["home"] "new" (Path false ["notes"]) exFs.
Example C95_ex_save_file : fst exRun3 = Ok tt /\ at_ (snd exRun3) ["home"; "notes"] = Some (File "new").
Proof. split_and?; vm_compute; reflexivity. Qed.
Definition exRun4 := get_tempdir ["home"] (Path true ["home"]) (fun _ _ => "x1") (Some (Path false ["out"; "t"])) exFs.
Example C95_ex_tempdir : fst exRun4 = Ok ["home"; "out"; "t"; "x1"] /\ at_ (snd exRun4) ["home"; "out"; "t"; "x1"] = Some Dir.
Proof. split_and?; vm_compute; reflexivity. Qed.
(** Names that are not used exist in every directory: one longer than every used one. *)
Fixpoint exXs (n : nat) : string := match n with O => "" | S n => String (Ascii.Ascii false false false true true true true false) (exXs n) end.
Definition exFresh (s : fs) (d : list string) : string :=
  exXs (S (foldr Nat.max 0%nat (map (fun le => String.length (List.last (fst le) "")) (map_to_list s)))).
Example ex_fresh : forall s d, s !! (d ++ [exFresh s d]) = None.
Proof.
  intros s d. destruct (s !! (d ++ [exFresh s d])) as [e|] eqn:E; [|done]. exfalso. apply elem_of_map_to_list in E.
  assert (Hlen : forall n, String.length (exXs n) = n) by (induction n as [|n IH]; cbn; congruence).
  assert (Hmax : forall (l : list (list string * entry)) le, le ∈ l ->
    (String.length (List.last (fst le) "") <= foldr Nat.max 0 (map (fun le => String.length (List.last (fst le) "")) l))%nat).
  { induction l as [|a l IH]; intros le Hle; [by apply elem_of_nil in Hle|]. apply elem_of_cons in Hle as [->|Hle]; cbn; [lia|].
    specialize (IH _ Hle). lia. }
  specialize (Hmax _ _ E). cbn [fst] in Hmax. rewrite List.last_last in Hmax. unfold exFresh in Hmax at 1. rewrite Hlen in Hmax. lia.
Qed.
