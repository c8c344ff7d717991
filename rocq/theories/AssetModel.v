(** The embedded probe and the functions that hand it out or write it to a directory:
    pkg/kernel/assets/compiled.go 75-223 and loader.go 13-20. The table has one asset; its
    bytes are a parameter. Paths are POSIX ones. *)
From Coq Require Import ZArith String Ascii Lia.
From stdpp Require Import base list numbers strings gmap.

Local Open Scope string_scope.
Local Open Scope list_scope.

(** strings.Replace(name, "\\", "/", -1). *)
Fixpoint canonical (s : string) : string :=
  match s with
  | EmptyString => EmptyString
  | String c s => String (if Ascii.eqb c "\" then "/"%char else c) (canonical s)
  end.
(** strings.Split(s, "/"). *)
Fixpoint split_slash (s : string) : list string :=
  match s with
  | EmptyString => [EmptyString]
  | String c s =>
      match split_slash s with
      | [] => []
      | w :: ws => if Ascii.eqb c "/" then EmptyString :: w :: ws else String c w :: ws
      end
  end.

(** compiled.go 126-128, 117-123. *)
Definition asset_names : list string := ["internal/bpf/probe.o"].
(** compiled.go 78-88; AssetInfo, 104-114, finds the same names. [None] is the error. *)
Definition asset (data name : string) : option string :=
  if String.eqb (canonical name) "internal/bpf/probe.o" then Some data else None.
(** loader.go 13-20: LoadBPF and LoadBPFReader drop the error. *)
Definition load_bpf (data : string) : string := default "" (asset data "internal/bpf/probe.o").

(** compiled.go 165-176: a node with a Func has no children. *)
Inductive bintree := Leaf | Node (children : list (string * bintree)).
Definition tree : bintree := Node [("internal", Node [("bpf", Node [("probe.o", Leaf)])])].
Fixpoint child (p : string) (cs : list (string * bintree)) : option bintree :=
  match cs with [] => None | (q, t) :: cs => if String.eqb p q then Some t else child p cs end.
Fixpoint walk (t : bintree) (ps : list string) : option bintree :=
  match ps with
  | [] => Some t
  | p :: ps => match t with Leaf => None | Node cs => match child p cs with None => None | Some t => walk t ps end end
  end.
(** compiled.go 143-163. *)
Definition asset_dir (name : string) : option (list string) :=
  match (if String.eqb name "" then Some tree else walk tree (split_slash (canonical name))) with
  | Some (Node cs) => Some (map fst cs)
  | _ => None
  end.

(** * The file system: what there is at a path and what the user may do to it. A directory
    has a write bit, a file its bytes, whether this user may read and write it, whether it
    is theirs, and its modification time. Left out: links, search permissions of directories, a full
    disk, other programs at the same time. *)
Inductive node := Dir (w : bool) | File (data : string) (r w own : bool) (mtime : Z).
Notation fs := (gmap (list string) node).
Record user := User { root : bool }.

Definition can_add (u : user) (f : fs) (p : list string) : bool :=
  match f !! p with Some (Dir w) => root u || w | _ => false end.
(** os.MkdirAll(p, 0755) from the root down; the directories made are the user's. *)
Fixpoint mkdirs (u : user) (f : fs) (at_ rest : list string) : fs * bool :=
  match rest with
  | [] => (f, true)
  | c :: rest =>
      let p := at_ ++ [c] in
      match f !! p with
      | Some (Dir _) => mkdirs u f p rest
      | Some (File _ _ _ _ _) => (f, false)
      | None => if can_add u f at_ then mkdirs u (<[p := Dir true]> f) p rest else (f, false)
      end
  end.
(** ioutil.WriteFile(p, data, 0): a new file gets no permissions at all (compiled.go 70:
    mode 0), an old one keeps those it has. [now] is the time. *)
Definition write_file (u : user) (now : Z) (f : fs) (p : list string) (data : string) : fs * bool :=
  match f !! p with
  | Some (Dir _) => (f, false)
  | Some (File _ r w own _) => if root u || w then (<[p := File data r w own now]> f, true) else (f, false)
  | None => if can_add u f (removelast p) then (<[p := File data false false true now]> f, true) else (f, false)
  end.
(** os.Chtimes(p, t, t): only for the owner. *)
Definition chtimes (u : user) (f : fs) (p : list string) (t : Z) : fs * bool :=
  match f !! p with
  | Some (File d r w own _) => if root u || own then (<[p := File d r w own t]> f, true) else (f, false)
  | _ => (f, false)
  end.
Definition read_file (u : user) (f : fs) (p : list string) : option string :=
  match f !! p with Some (File d r _ _ _) => if root u || r then Some d else None | _ => None end.

(** compiled.go 220-223 for a clean [dir], whose components are given, and a name that
    Asset accepts, which has no empty or dot components. *)
Definition file_path (dir : list string) (name : string) : list string := dir ++ split_slash (canonical name).
(** _filePath(dir, filepath.Dir(name)) for such a name: Dir cuts at the last slash, not at
    a backslash; if there is none it is ".", which Join drops. *)
Definition dir_path (dir : list string) (name : string) : list string :=
  dir ++ concat (map (fun p => split_slash (canonical p)) (removelast (split_slash name))).

(** compiled.go 179-201. *)
Definition restore_asset (u : user) (now : Z) (data : string) (f : fs) (dir : list string) (name : string) : fs * bool :=
  match asset data name with
  | None => (f, false)
  | Some d =>
      let (f1, ok1) := mkdirs u f [] (dir_path dir name) in
      if negb ok1 then (f1, false)
      else let (f2, ok2) := write_file u now f1 (file_path dir name) d in
           if negb ok2 then (f2, false) else chtimes u f2 (file_path dir name) 0
  end.

(** filepath.Join(name, child) for a name that AssetDir accepts. *)
Definition join (name c : string) : string := if String.eqb name "" then c else (name ++ "/" ++ c)%string.
(** compiled.go 204-218. [None] is a call nested deeper than [fuel]. *)
Fixpoint restore_assets (fuel : nat) (u : user) (now : Z) (data : string) (f : fs) (dir : list string) (name : string) : option (fs * bool) :=
  match fuel with
  | O => None
  | S fuel =>
      match asset_dir name with
      | None => Some (restore_asset u now data f dir name)
      | Some cs =>
          (fix each (cs : list string) (f : fs) : option (fs * bool) :=
             match cs with
             | [] => Some (f, true)
             | c :: cs =>
                 match restore_assets fuel u now data f dir (join name c) with
                 | Some (f1, true) => each cs f1
                 | r => r
                 end
             end) cs f
      end
  end.
