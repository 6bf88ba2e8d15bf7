(** Specifications for the file utilities. *)
From Verif Require Import Base Chars FileModel.
Local Open Scope Z_scope.

(** The first line of a stream with its newline. *)
Fixpoint first_line (s : list Z) : list Z :=
  match s with
  | [] => []
  | c :: t => if c =? LF then [c] else c :: first_line t
  end.

(** dirname(3p): without trailing slashes, without the last name, without the slashes
    before it; "/" if nothing but slashes is left, "." if there is no slash. *)
Fixpoint drop_while (f : Z -> bool) (l : list Z) : list Z :=
  match l with c :: t => if f c then drop_while f t else l | [] => [] end.
Definition is_slash (c : Z) : bool := c =? SLASH.
Definition trim_end (f : Z -> bool) (l : list Z) : list Z := rev (drop_while f (rev l)).
Definition dirname (path : list Z) : list Z :=
  match path with
  | [] => [DOT]
  | _ =>
      match trim_end is_slash path with
      | [] => [SLASH]
      | t => match trim_end (fun c => negb (is_slash c)) t with
             | [] => [DOT]
             | u => match trim_end is_slash u with [] => [SLASH] | v => v end
             end
      end
  end.

(** Well-formed file systems: the root and the working directory are directories, and
    whatever exists is in a directory. *)
Definition fs_ok (fs : fsys) : Prop :=
  (forall a, fs (a, []) = Some Dir) /\
  (forall a l x, fs (a, l ++ [x]) <> None -> fs (a, l) = Some Dir).
