(** Specification of the expansion of conversion specifiers, as in the section
    "CONVERSION SPECIFIERS" of conman.conf(5). *)
From Coq Require Import String.
From Verif Require Import Base Chars Fmt FnameModel.
Local Open Scope Z_scope.

(** What a console can be made of, for the expansion. *)
Inductive what := Path (p : list Z) | Host (h : list Z) (port : Z) | Other.

(** The last component of a path. *)
Definition last_component (p c : list Z) : Prop :=
  (p = c /\ ~ In 47 p) \/ (exists d, p = (d ++ 47 :: c)%list /\ ~ In 47 c).

Definition clean_char (c : Z) : Z := if (33 <=? c) && (c <=? 126) && negb (c =? 47) then c else 95.
Definition clean (s : list Z) : list Z := map clean_char s.

(** [text con pid tm c t]: the specifier %c stands for [t].  [con] is absent for
    names that do not belong to a console; [tm c]: the part of the date. *)
Inductive text (con : option (list Z * what)) (pid : Z) (tm : Z -> list Z) : Z -> list Z -> Prop :=
| T_name name dev : con = Some (name, dev) -> text con pid tm 78 (clean name)
| T_path name p c : con = Some (name, Path p) -> last_component p c -> text con pid tm 68 (clean c)
| T_host name h port : con = Some (name, Host h port) -> text con pid tm 68 (clean (h ++ 58 :: fmt_d port)%list)
| T_other name : con = Some (name, Other) -> text con pid tm 68 []
| T_pid : text con pid tm 80 (fmt_d pid)
| T_time c : In c (zs "dgGHjmMsSuUVwWyY") -> text con pid tm c (tm c)
| T_percent : text con pid tm 37 [37]
| T_none c : con = None -> c = 78 \/ c = 68 -> text con pid tm c [37; c]
| T_unknown c : ~ In c (zs "NDPdgGHjmMsSuUVwWyY%") -> text con pid tm c [37; c].

(** A format is a sequence of characters and specifiers. *)
Inductive expands (con : option (list Z * what)) (pid : Z) (tm : Z -> list Z) : list Z -> list Z -> Prop :=
| X_end : expands con pid tm [] []
| X_char c fmt t : c <> 37 -> expands con pid tm fmt t -> expands con pid tm (c :: fmt) (c :: t)
| X_spec c s fmt t : text con pid tm c s -> expands con pid tm fmt t -> expands con pid tm (37 :: c :: fmt) (s ++ t).

(** A format that ends in the middle of a specifier. *)
Fixpoint dangling (fmt : list Z) : bool :=
  match fmt with
  | [] => false
  | c :: t => if c =? 37 then match t with [] => true | _ :: t' => dangling t' end else dangling t
  end.

(** The slashes of the format itself. *)
Fixpoint slashes (fmt : list Z) : nat :=
  match fmt with
  | [] => O
  | c :: t => if c =? 37 then match t with
                              | [] => O
                              | d :: t' => ((if (d =? 47)%Z then 1 else 0) + slashes t')%nat
                              end
              else ((if (c =? 47)%Z then 1 else 0) + slashes t)%nat
  end.
Fixpoint count_slashes (s : list Z) : nat :=
  match s with [] => O | c :: t => ((if (c =? 47)%Z then 1 else 0) + count_slashes t)%nat end.

(** ** About the model's arguments *)

(** The console as the specification sees it. *)
Definition conv (o : conobj) : list Z * what :=
  (o_name o, match o_dev o with DFile p => Path p | DTelnet h q => Host h q | DNone => Other end).

(** Strings contain no NUL.  Where <ctype.h> is undefined for characters above 127
    ([iso]), there are none. *)
Definition gchar (iso : bool) (c : Z) : Prop := (1 <= c < 256)%Z /\ (iso = true -> (c < 128)%Z).

Definition obj_ok (iso : bool) (obj : option conobj) : Prop :=
  match obj with
  | None => True
  | Some o => Forall (gchar iso) (o_name o)
              /\ match o_dev o with DFile p => Forall (gchar iso) p | DTelnet h _ => Forall (gchar iso) h | DNone => True end
  end.

(** strftime() gives some text for each specifier. *)
Definition tm_ok (tm : Z -> list Z) : Prop := forall c, In c (zs "dgGHjmMsSuUVwWyY") -> tm c <> [] /\ chars_ok (tm c).

(** ** Log files *)

(** The logs of a configuration: what the console directives, one after the other,
    have added. *)
Inductive configured (iso : bool) (pid : Z) : list log -> Prop :=
| C_none : configured iso pid []
| C_add tm buf name con logs logs' :
    configured iso pid logs -> create_logfile iso pid tm buf name con logs = Ok (Some logs') ->
    configured iso pid logs'.
