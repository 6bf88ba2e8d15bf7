(** What the client's command line, environment and files with names mean. *)
From Coq Require Import String.
From Verif Require Import Base Chars Fmt EnvModel CliModel.
Local Open Scope Z_scope.
Local Open Scope list_scope.

(** ** Files with names of consoles *)
(** a file with lines [ls], each ended by a newline, and [last] after them *)
Definition file_of (ls : list (list Z)) (last : list Z) : list Z := concat (map (fun l => l ++ [LF]) ls) ++ last.
(** [body] is what [line] is without the blanks around it *)
Definition blanks (s : list Z) : Prop := Forall (fun c => isspace c = true) s.
Definition stripped (line body : list Z) : Prop :=
  exists a b, line = a ++ body ++ b /\ blanks a /\ blanks b /\
  (forall c t, body = c :: t -> isspace c = false) /\ (forall c t, body = t ++ [c] -> isspace c = false).
(** the names that lines give: comments and empty lines give none *)
Inductive lists : list (list Z) -> list (list Z) -> Prop :=
  | lists_nil : lists [] []
  | lists_skip l ls body ns : stripped l body -> body = [] \/ (exists t, body = HASH :: t) -> lists ls ns -> lists (l :: ls) ns
  | lists_name l ls body ns : stripped l body -> body <> [] -> (forall t, body <> HASH :: t) -> lists ls ns -> lists (l :: ls) (body :: ns).
(** text that can be in a file: no NUL, and under ISO C's rules for isspace() 7-bit *)
Definition text_ok (iso : bool) (s : list Z) : Prop := Forall (fun c => 1 <= c < (if iso then 128 else 256)) s.
(** [file], of lines that fit a buffer of [L] bytes, gives [ns] *)
Definition gives (iso : bool) (L : nat) (file : list Z) (ns : list (list Z)) : Prop :=
  exists ls last, file = file_of ls last /\ Forall (fun l => ~ In LF l /\ (length l + 2 <= L)%nat) ls /\ ~ In LF last /\ (length last + 1 <= L)%nat /\
  text_ok iso file /\ lists (ls ++ [last]) ns.

(** ** Arguments *)
Fixpoint with_commas (ps : list (list Z)) : list Z :=
  match ps with [] => [] | [p] => p | p :: ps => p ++ COMMA :: with_commas ps end.
Definition nonempty (p : list Z) : bool := match p with [] => false | _ => true end.
(** the arguments [args] give the names [ns]: between commas, empty ones do not count *)
Definition args_give (args ns : list (list Z)) : Prop :=
  exists pss, args = map with_commas pss /\ Forall (fun ps => ps <> [] /\ Forall (fun p => ~ In COMMA p) ps) pss /\ ns = filter nonempty (concat pss).
(** the options give the names [ns] *)
Inductive opts_give (iso : bool) (L : nat) : list opt -> list (list Z) -> Prop :=
  | og_nil : opts_give iso L [] []
  | og_file f l ns ms : gives iso L f ns -> opts_give iso L l ms -> opts_give iso L (OFile (Some f) :: l) (ns ++ ms)
  | og_other o l ns : (forall f, o <> OFile f) -> opts_give iso L l ns -> opts_give iso L (o :: l) ns.

(** ** Precedence *)
(** everything that may decide a setting, the decisive ones last *)
Inductive source := EnvHost (v : list Z) | EnvPort (v : list Z) | EnvEscape (v : list Z) | Option_ (o : opt).
Definition given {A B} (f : A -> B) (x : option A) : list B := match x with Some a => [f a] | None => [] end.
Definition sources (env : list (list Z)) (l : list opt) : list source :=
  given EnvHost (getenv env (zs "CONMAN_HOST")) ++ given EnvPort (getenv env (zs "CONMAN_PORT")) ++
  given EnvEscape (getenv env (zs "CONMAN_ESCAPE")) ++ map Option_ l.
(** [x] is what the last of the sources says that says anything about it, else [d] *)
Definition chosen {S A} (says : S -> A -> Prop) (d : A) (l : list S) (x : A) : Prop :=
  (exists a s b, l = a ++ s :: b /\ says s x /\ (forall s' y, In s' b -> ~ says s' y)) \/
  (x = d /\ forall s y, In s l -> ~ says s y).
(** HOST or HOST:PORT *)
Definition dest (v h : list Z) (q : option (list Z)) : Prop :=
  ~ In COLON h /\ v = match q with Some q => h ++ COLON :: q | None => h end.
Definition says_port (s : source) (p : Z) : Prop :=
  0 < p /\ match s with
           | EnvHost v | Option_ (ODest v) => exists h q, dest v h (Some q) /\ atoi q = Ok p
           | EnvPort v => atoi v = Ok p
           | _ => False
           end.
Definition says_host (s : source) (h : list Z) : Prop :=
  h <> [] /\ match s with
             | EnvHost v | Option_ (ODest v) => exists q, dest v h q
             | _ => False
             end.
Definition says_esc (s : source) (e : Z) : Prop :=
  match s with
  | EnvEscape v => exists t, v = e :: t
  | Option_ (OEsc a) => exists t, a ++ [NUL] = e :: t
  | _ => False
  end.
Definition says_cmd (s : source) (k : command) : Prop :=
  match s with Option_ OMonitor => k = Monitor | Option_ OQuery => k = Query | _ => False end.
Definition says_log (s : source) (f : option (list Z)) : Prop :=
  match s with Option_ (OLog a) => f = Some a | _ => False end.
(** force and join *)
Definition says_share (s : source) (m : bool * bool) : Prop :=
  match s with Option_ OForce => m = (true, false) | Option_ OJoin => m = (false, true) | _ => False end.

(** ** What is assumed of the input *)
(** the text after the colon is no number beyond the range of an int *)
Definition dest_ok (v : list Z) : Prop := forall h q, dest v h (Some q) -> exists n, atoi q = Ok n.
Definition opt_ok (iso : bool) (L : nat) (o : opt) : Prop :=
  match o with
  | ODest a => dest_ok a
  | OFile f => exists t ns, f = Some t /\ gives iso L t ns
  | OLicense | OVersion | OInvalid => False
  | _ => True
  end.
Definition env_ok (env : list (list Z)) : Prop :=
  (forall v, getenv env (zs "CONMAN_HOST") = Some v -> dest_ok v) /\
  (forall v, getenv env (zs "CONMAN_PORT") = Some v -> exists n, atoi v = Ok n).

(** ** What is decided *)
Record decided (S : list source) (c : conf) : Prop := {
  d_port : chosen says_port 7890 S (c_port c);
  d_host : chosen says_host (zs "127.0.0.1") S (c_host c);
  d_esc : chosen says_esc 38 S (c_esc c);
  d_cmd : chosen says_cmd Connect S (c_cmd c);
  d_log : chosen says_log None S (c_log c);
  (** a client that monitors neither forces, joins nor broadcasts *)
  d_share : c_cmd c <> Monitor -> chosen says_share (false, false) S (c_force c, c_join c);
  d_bcast : c_cmd c <> Monitor -> (c_bcast c = true <-> In (Option_ OBcast) S);
  d_monitor : c_cmd c = Monitor -> c_bcast c = false /\ c_force c = false /\ c_join c = false;
  d_quiet : c_quiet c = true <-> In (Option_ OQuiet) S;
  d_regex : c_regex c = true <-> In (Option_ ORegex) S;
  d_verbose : c_verbose c = true <-> In (Option_ OVerbose) S }.
(** an option that ends the client at once *)
Definition ends (o : opt) : Prop := o = OLicense \/ o = OVersion \/ o = OInvalid.
