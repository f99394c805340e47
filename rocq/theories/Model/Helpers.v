(** Model of the remaining helpers of corset/utils.py: csr_matrix_equal, array_product, and the ones for files. *)
From Coq Require Import String Reals.
From stdpp Require Import strings.
From Verif.Model Require Import PyBase Sparse Utils Evaluation PyState.
Open Scope string_scope.
Open Scope list_scope.
Open Scope Z_scope.

(** m1 != m2 of scipy 1.8 is a matrix if the shapes are equal, and True otherwise *)
Definition csr_ne (m1 m2 : csr) : result (csr + bool) :=
  if (csr_rows m1 =? csr_rows m2) && (csr_cols m1 =? csr_cols m2)
  then let! d := csr_binop (fun a b => if a =? b then 0 else 1) m1 m2 in Ok (inl d)
  else Ok (inr true).

(** csr_matrix_equal (corset/utils.py:162-166); a bool has no attribute nnz. *)
Definition csr_matrix_equal (m1 m2 : csr) : result bool :=
  let! d := csr_ne m1 m2 in
  match d with
  | inl d => Ok (nnz (csr_mat d) =? 0)
  | inr _ => Err AttributeError
  end.

(** array_product (corset/utils.py:86-90) *)
Definition array_product (arr : list R) : R := fold_left (fun res e => res * e)%R arr 1%R.

(** ** Files.  A path is its components, starting at the root or at the current directory; the path without components is
    '/' or ''.  Simplification: there are no '.', '..', links or permissions. *)
Record path := Path { p_abs : bool; p_parts : list string }.

(** The file system: what each absolute path (below the root) is *)
Inductive entry := Dir | File (content : string).
Notation fs := (gmap (list string) entry).

Section Files.
  Context (cwd : list string).

  Definition resolve (p : path) : list string := if p_abs p then p_parts p else cwd ++ p_parts p.

  (** os.path.exists; the root exists, '' does not *)
  Definition lookup_path (s : fs) (l : list string) : option entry := match l with [] => Some Dir | _ => s !! l end.
  Definition exists_ (s : fs) (p : path) : bool :=
    match p_abs p, p_parts p with
    | false, [] => false
    | _, _ => match lookup_path s (resolve p) with Some _ => true | None => false end
    end.

  (** os.path.dirname *)
  Definition dirname (p : path) : path := Path (p_abs p) (removelast (p_parts p)).

  (** os.mkdir, where the path does not exist: the parent must be a directory.  The subclasses of OSError are not
      distinguished: GenericException. *)
  Definition mkdir (l : list string) : sx fs unit :=
    let^ s := sget in
    match lookup_path s l, lookup_path s (removelast l) with
    | None, Some Dir => smod (fun s => <[l := Dir]> s)
    | _, _ => serr GenericException
    end.

  (** os.makedirs(d), where d has n + 1 components *)
  Fixpoint makedirs (n : nat) (l : list string) : sx fs unit :=
    match n with
    | O => mkdir l
    | S n => let^ s := sget in
             let^ _ := match lookup_path s (removelast l) with
                       | None => makedirs n (removelast l)
                       | Some _ => sret tt
                       end in
             mkdir l
    end.
  Definition os_makedirs (p : path) : sx fs unit :=
    match p_abs p, p_parts p with
    | false, [] => serr GenericException     (* FileNotFoundError: '' *)
    | _, _ => makedirs (length (p_parts p) - 1) (resolve p)
    end.

  (** makedir (corset/utils.py:32-37) *)
  Definition makedir (d : path) (usedir : bool) : sx fs unit :=
    let d := if usedir then dirname d else d in
    let^ s := sget in
    if negb (exists_ s d) then os_makedirs d else sret tt.

  (** open(path, 'w') and writing a string: the file is created or overwritten; its directory must exist *)
  Definition write_file (content : string) (p : path) : sx fs unit :=
    let^ s := sget in
    match p_abs p, p_parts p with
    | false, [] => serr GenericException
    | _, _ => match lookup_path s (resolve p), lookup_path s (removelast (resolve p)) with
              | Some Dir, _ => serr GenericException
              | _, Some Dir => smod (fun s => <[resolve p := File content]> s)
              | _, _ => serr GenericException
              end
    end.

  (** save_file (corset/utils.py:43-45) *)
  Definition save_file (content : string) (p : path) : sx fs unit := write_file content p.

  (** reading a whole file *)
  Definition read_file (p : path) : sx fs string :=
    let^ s := sget in
    match p_abs p, p_parts p with
    | false, [] => serr GenericException
    | _, _ => match lookup_path s (resolve p) with Some (File c) => sret c | _ => serr GenericException end
    end.

  (** save_json (corset/utils.py:51-53), save_pickle (:40-41) and load_pickle (:47-48); [dumps] and [loads] are those of json
      or pickle.  json.dump writes into the open file, which is empty or incomplete if dumping fails: here it is empty. *)
  Context {A : Type} (dumps : A -> result string) (loads : string -> result A).
  Definition save_json (obj : A) (p : path) : sx fs unit :=
    let^ _ := write_file "" p in
    let^ c := slift (dumps obj) in
    write_file c p.
  Definition save_pickle : A -> path -> sx fs unit := save_json.
  Definition load_pickle (p : path) : sx fs A := let^ c := read_file p in slift (loads c).

  (** get_tempdir (corset/utils.py:26-29); [fresh s d] is the name chosen by tempfile.mkdtemp in the directory d, [tmp] the default one *)
  Definition get_tempdir (tmp : path) (fresh : fs -> list string -> string) (dir : option path) : sx fs (list string) :=
    let^ _ := match dir with Some d => makedir d false | None => sret tt end in
    let d := resolve (default tmp dir) in
    let^ s := sget in
    let l := d ++ [fresh s d] in
    let^ _ := mkdir l in
    sret l.
End Files.
