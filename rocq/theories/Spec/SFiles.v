(** What file systems are and how creating directories changes them. *)
From stdpp Require Import strings.
From Verif.Model Require Import PyBase Helpers.

(** What is at a place: the root is a directory. *)
Definition at_ (s : fs) (l : list string) : option entry := match l with [] => Some Dir | _ => s !! l end.

(** Everything is in a directory. *)
Definition wf_fs (s : fs) : Prop := forall l e, s !! l = Some e -> exists d x, l = d ++ [x] /\ at_ s d = Some Dir.

(** The place of the path whose components are [ds], absolute or from the current directory. *)
Definition place (cwd : list string) (abs : bool) (ds : list string) : list string := if abs then ds else cwd ++ ds.

(** No file is where a directory is needed. *)
Definition no_file_above (s : fs) (t : list string) : Prop := forall l c, l `prefix_of` t -> at_ s l <> Some (File c).

(** [s'] is [s] with the directory [t] and the directories above it, and no other change. *)
Definition with_dir (s s' : fs) (t : list string) : Prop :=
  forall l, (l `prefix_of` t -> at_ s' l = Some Dir) /\ (~ l `prefix_of` t -> at_ s' l = at_ s l).
