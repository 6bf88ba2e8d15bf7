(** C93 to C95: the lines of serial consoles; C73 for them. *)
From Coq Require Import String Lia.
From Verif Require Import Base BaseProof Chars OptModel InstModel TermModel LineModel LineSpec LineProof.
Local Open Scope Z_scope.

(** The consoles as they are when the history begins: their options are valid (C53) and no two
    have the same device (C95). *)
Definition consoles_ok (w : world) : Prop := Forall (fun o => opts_ok (o_opts o)) (objs w) /\ NoDup (map o_dev (objs w)).

Lemma consoles_inv w : consoles_ok w -> all_ok w /\ distinct w.
Proof.
  intros (F & D). split.
  - intros x o N. rewrite Forall_forall in F. apply F. exact (nth_error_In _ _ N).
  - intros x y o p X Y E. apply (proj1 (NoDup_nth_error (map o_dev (objs w))) D).
    + rewrite map_length. apply nth_error_Some. congruence.
    + rewrite !nth_error_map, X, Y. cbn. congruence.
Qed.

(** While the daemon runs and the device of a serial console is open, the line has the speed, the
    data bits, the parity and the stop bits of the configuration: whatever happens to this console
    and others, however often it is closed and opened.  Partial: other programs do not set the
    device meanwhile, the device accepts all settings (see C93_unsupported_refuted), and its
    settings from before are without CMSPAR (see C93_parity_refuted). *)
Theorem C93_configured_partial : forall drv me c d opts w1 l,
  consoles_ok w1 -> on w1 c d opts -> is_open w1 c = false ->
  (forall p, drv d p = p) -> plain (ports w1 d) ->
  Forall (fun e => not_set d e /\ puts d plain e) l ->
  exists w2, history drv me w1 l = Ok w2 /\ (life_ w2 = Alive -> opened w2 c = true -> as_configured opts (ports w2 d)).
Proof.
  intros drv me c d opts w1 l CO (o & N & DV & OP) IO TK PL F. destruct (consoles_inv w1 CO) as (K & D).
  assert (OK : opts_ok opts) by (rewrite <- OP; exact (K c o N)).
  assert (QR : forall p p', plain p -> set_serial_opts (raw_port p) opts = Ok p' -> plain (drv d p') /\ as_configured opts (drv d p')).
  { intros p p' P E. rewrite TK. destruct (set_serial_opts_ok (raw_port p) opts OK) as (q & EQ & I & O & DB & SB & PA & C30 & _).
    rewrite E in EQ. injection EQ as <-. assert (PR : plain (raw_port p)) by (unfold plain; rewrite raw_plain; exact P).
    split; [unfold plain; rewrite C30; exact PR|]. unfold as_configured.
    split; [exact I|]. split; [exact O|]. split; [exact DB|]. split; [exact (PA PR) | exact SB]. }
  destruct (history_inv drv me c d opts plain (as_configured opts) QR l w1) as (w2 & E & I).
  - intros _. split; [exact K|]. split; [exact D|]. exists o. split; [exact N|]. split; [exact DV|]. split; [exact OP|]. split; [exact PL|].
    intros X. unfold is_open in IO. rewrite N in IO. congruence.
  - eapply Forall_impl; [|exact F]. intros e (X & Y). split; [left; exact X | exact Y].
  - exists w2. split; [exact E|]. intros A OC. destruct (I A) as (_ & _ & o2 & N2 & _ & _ & _ & R). unfold opened in OC. rewrite N2 in OC.
    apply andb_prop in OC as (O1 & O2). destruct (R O1) as (_ & R2). apply R2. destruct (o_lost o2); [discriminate | reflexivity].
Qed.

(** ... and the terminal passes every byte on, in both directions.  Partial: the settings from before
    are without IGNCR, INLCR and PARMRK (see C93_transparent_refuted). *)
Theorem C93_transparent_partial : forall drv me c d opts w1 l,
  consoles_ok w1 -> on w1 c d opts -> is_open w1 c = false ->
  (forall p, drv d p = p) -> bare (ports w1 d) ->
  Forall (fun e => not_set d e /\ puts d bare e) l ->
  exists w2, history drv me w1 l = Ok w2 /\
    (life_ w2 = Alive -> opened w2 c = true -> forall xon xoff b, tty_in xon xoff (ports w2 d) b = [b] /\ tty_out (ports w2 d) b = Some b).
Proof.
  intros drv me c d opts w1 l CO (o & N & DV & OP) IO TK PL F. destruct (consoles_inv w1 CO) as (K & D).
  assert (OK : opts_ok opts) by (rewrite <- OP; exact (K c o N)).
  set (R := fun q => forall xon xoff b, tty_in xon xoff q b = [b] /\ tty_out q b = Some b).
  assert (QR : forall p p', bare p -> set_serial_opts (raw_port p) opts = Ok p' -> bare (drv d p') /\ R (drv d p')).
  { intros p p' P E. rewrite TK. destruct (set_serial_opts_ok (raw_port p) opts OK) as (q & EQ & _ & _ & _ & _ & _ & _ & IF & OF & LF_).
    rewrite E in EQ. injection EQ as <-. split.
    - pose proof (raw_bare p P) as B. unfold bare, ibit in *. rewrite IF. exact B.
    - intros xon xoff b. split; [rewrite (tty_in_ext xon xoff p' (raw_port p) b IF LF_); apply raw_in; exact P|].
      unfold tty_out. rewrite OF. exact (raw_out p b). }
  destruct (history_inv drv me c d opts bare R QR l w1) as (w2 & E & I).
  - intros _. split; [exact K|]. split; [exact D|]. exists o. split; [exact N|]. split; [exact DV|]. split; [exact OP|]. split; [exact PL|].
    intros X. unfold is_open in IO. rewrite N in IO. congruence.
  - eapply Forall_impl; [|exact F]. intros e (X & Y). split; [left; exact X | exact Y].
  - exists w2. split; [exact E|]. intros A OC. destruct (I A) as (_ & _ & o2 & N2 & _ & _ & _ & R0). unfold opened in OC. rewrite N2 in OC.
    apply andb_prop in OC as (O1 & O2). destruct (R0 O1) as (_ & R2). apply R2. destruct (o_lost o2); [discriminate | reflexivity].
Qed.

(** ** Cases *)
Definition all (d : nat) (p : port) : port := p.
Definition usual : port := mkPort (mkTerm 1280 5 191 35387 1 0 []) 9600 9600.
Definition o7E2 : seropt := mkSer 19200 7 2 2.
Definition junk : port := mkPort (mkTerm 7 7 7 7 7 7 []) 7 7.
Definition console (d : nat) (o : seropt) : obj := mkObj d o false false junk.
Definition start_ (p : port) (l : list obj) : world := mkWorld (fun _ => p) (fun _ => false) [] l Alive.
Example C93_example : exists w2,
  history all 10 (start_ usual [console 3 o7E2; console 4 (mkSer 9600 8 0 1)])
    [Open 0 true None; Open 1 true None; Foreign 1 55 3 true; Hangup 0 true None; Hangup 1 true (Some 1%nat); Open 1 false None] = Ok w2 /\
  life_ w2 = Alive /\ opened w2 0 = true /\ opened w2 1 = false /\ as_configured o7E2 (ports w2 3) /\ ports w2 4 <> usual.
Proof. eexists. split; [vm_compute; reflexivity|]. vm_compute. repeat split; congruence. Qed.
Example C93_hypotheses : consoles_ok (start_ usual [console 3 o7E2; console 4 (mkSer 9600 8 0 1)]) /\ plain usual /\ bare usual.
Proof.
  split; [|vm_compute; auto]. split.
  - repeat (apply Forall_cons; [cbn; unfold opts_ok; cbn; lia|]). apply Forall_nil.
  - cbn. apply NoDup_cons; [intros [X|[]]; discriminate|]. apply NoDup_cons; [intros []|]. apply NoDup_nil.
Qed.

(** A line that had mark or space parity (CMSPAR) keeps it: with even parity configured it is then
    space parity. *)
Theorem C93_parity_refuted : exists p w2, bare p /\
  history all 10 (start_ p [console 0 o7E2]) [Open 0 true None] = Ok w2 /\ opened w2 0 = true /\ parity (ports w2 0) = Space.
Proof. exists (mkPort (mkTerm 1280 5 (191 + 2 ^ 30) 35387 1 0 []) 9600 9600). eexists. split; [vm_compute; auto|]. split; [vm_compute; reflexivity|]. split; reflexivity. Qed.

(** Settings from before that translate characters on input are kept: with INLCR, every newline
    of the console arrives as a carriage return; with IGNCR every carriage return is lost; with
    PARMRK the byte 255 arrives twice. *)
Theorem C93_transparent_refuted : exists p w2, plain p /\
  history all 10 (start_ p [console 0 o7E2]) [Open 0 true None] = Ok w2 /\ opened w2 0 = true /\
  tty_in 17 19 (ports w2 0) LF = [CR] /\ tty_in 17 19 (ports w2 0) CR = [] /\ tty_in 17 19 (ports w2 0) 255 = [255; 255].
Proof. exists (mkPort (mkTerm (1280 + 64 + 128 + 8) 5 191 35387 1 0 []) 9600 9600). eexists. split; [vm_compute; auto|]. split; [vm_compute; reflexivity|]. repeat split; vm_compute; reflexivity. Qed.

(** A speed that the device does not support is ignored in silence: the console is open, at
    another speed than configured. *)
Theorem C93_unsupported_refuted : exists drv w2,
  history drv 10 (start_ usual [console 0 (mkSer 460800 8 0 1)]) [Open 0 true None] = Ok w2 /\ opened w2 0 = true /\ ospeed (ports w2 0) = 9600.
Proof. exists (fun _ p => mkPort (tio p) 9600 9600). eexists. split; [vm_compute; reflexivity|]. split; reflexivity. Qed.

(** A serial device that disappears while it is opened, between two of the calls, ends the daemon
    with all its consoles: tcgetattr() or tcsetattr() fails, and log_err() is called. *)
Theorem C73_serial_refuted : forall k, In k [3%nat; 5%nat; 7%nat] -> exists w2,
  history all 10 (start_ usual [console 0 o7E2; console 1 o7E2]) [Open 0 true None; Open 1 true (Some k)] = Ok w2 /\ life_ w2 = Died.
Proof. intros k [<- | [<- | [<- | []]]]; eexists; (split; [vm_compute; reflexivity | reflexivity]). Qed.

(** ** Given back *)
(** When the daemon has ended by a signal, the device of a console has the settings that it had
    before the console was opened, whatever happened to the other consoles.  Partial: the console
    was never shut down for an error (see C94_hangup_refuted), its device stayed there and was not
    set by others, and the device takes its old settings back. *)
Theorem C94_given_back_partial : forall drv me c d opts w1 l,
  consoles_ok w1 -> on w1 c d opts -> is_open w1 c = false -> life_ w1 = Alive -> drv d (ports w1 d) = ports w1 d ->
  Forall (stays c d) l ->
  exists w2, history drv me w1 l = Ok w2 /\ (life_ w2 = Ended -> ports w2 d = ports w1 d).
Proof.
  intros drv me c d opts w1 l CO (o & N & DV & OP) IO A TK F. destruct (consoles_inv w1 CO) as (K & D).
  destruct (history_inv2 drv me c d opts (ports w1 d) TK l w1) as (w2 & E & I).
  - split; [intros _ | congruence]. split; [exact K|]. split; [exact D|]. exists o. unfold is_open in IO. rewrite N in IO.
    split; [exact N|]. split; [exact DV|]. split; [exact OP|]. split; [congruence | reflexivity].
  - exact F.
  - exists w2. split; [exact E | apply I].
Qed.
Example C94_example : exists w2,
  history all 10 (start_ usual [console 3 o7E2; console 4 o7E2]) [Open 0 true None; Open 1 true None; Hangup 1 false None; Finish []] = Ok w2 /\
  life_ w2 = Ended /\ ports w2 3 = usual /\ ports w2 4 <> usual.
Proof. eexists. split; [vm_compute; reflexivity|]. repeat split; vm_compute; congruence. Qed.

(** After an end of file or an error on the device, the settings from before are lost: shutdown_obj()
    closes the descriptor without setting them, and open_serial_obj() takes the raw settings for
    those from before. *)
Theorem C94_hangup_refuted : exists w2,
  history all 10 (start_ usual [console 0 o7E2]) [Open 0 true None; Hangup 0 true None; Finish []] = Ok w2 /\ life_ w2 = Ended /\
  ports w2 0 <> usual /\ as_configured o7E2 (ports w2 0).
Proof. eexists. split; [vm_compute; reflexivity|]. split; [reflexivity|]. split; [vm_compute; congruence|]. vm_compute. auto. Qed.

(** A device with output that cannot leave (stopped by the other side) keeps the daemon from
    ending: destroy_obj() sets the old settings with TCSAFLUSH, which waits for the output, before
    it discards the output.  The devices that follow are not given back. *)
Theorem C94_stopped_refuted : exists w2,
  history all 10 (start_ usual [console 0 o7E2; console 1 o7E2]) [Open 0 true None; Open 1 true None; Stall 0 true; Finish []] = Ok w2 /\
  life_ w2 = Hung /\ ports w2 1 <> usual.
Proof. eexists. split; [vm_compute; reflexivity|]. split; [reflexivity | vm_compute; congruence]. Qed.

(** After a fatal error no device is given back. *)
Theorem C94_fatal_refuted : exists w2,
  history all 10 (start_ usual [console 0 o7E2; console 1 o7E2]) [Open 0 true None; Open 1 true (Some 7%nat)] = Ok w2 /\
  life_ w2 = Died /\ ports w2 0 <> usual.
Proof. eexists. split; [vm_compute; reflexivity|]. split; [reflexivity | vm_compute; congruence]. Qed.

(** ** One user *)
(** While the device of a console is open, no other program can lock it, for reading or writing. *)
Theorem C95_locked : forall drv me c d opts w1 l,
  consoles_ok w1 -> on w1 c d opts -> is_open w1 c = false ->
  exists w2, history drv me w1 l = Ok w2 /\ (life_ w2 = Alive -> is_open w2 c = true -> ~ lockable w2 d).
Proof.
  intros drv me c d opts w1 l CO (o & N & DV & OP) IO. destruct (consoles_inv w1 CO) as (K & D).
  destruct (history_inv drv me c d opts (fun _ => True) (fun _ => True)) with (l := l) (w := w1) as (w2 & E & I).
  - auto.
  - intros _. split; [exact K|]. split; [exact D|]. exists o. split; [exact N|]. split; [exact DV|]. split; [exact OP|]. split; [exact Logic.I|].
    intros X. unfold is_open in IO. rewrite N in IO. congruence.
  - apply Forall_forall. intros e _. split; [right; auto | destruct e; cbn; auto].
  - exists w2. split; [exact E|]. intros A OC (id & x & wr & G). destruct (I A) as (_ & _ & o2 & N2 & _ & _ & _ & R). unfold is_open in OC. rewrite N2 in OC.
    apply G. eapply get_lock_blocked; [|apply (R OC)]; reflexivity.
Qed.
Example C95_example : exists w2,
  history all 10 (start_ usual [console 3 o7E2; console 4 o7E2]) [Open 0 true None; Open 1 true None; Stty 3 usual; Hangup 1 false None; Foreign 1 55 4 true; Open 1 true None] = Ok w2 /\
  life_ w2 = Alive /\ is_open w2 0 = true /\ is_open w2 1 = false /\ lockable w2 4.
Proof.
  eexists. split; [vm_compute; reflexivity|]. split; [reflexivity|]. split; [reflexivity|]. split; [reflexivity|].
  exists 1%nat, 55, true. vm_compute. discriminate.
Qed.

(** The configuration gives one console to a name, and one to a name of a device; so where two names
    of devices do not lead to the same device, two consoles do not have the same one.  Partial: see
    C95_alias_refuted for names that do. *)
Theorem C95_distinct_partial : forall defs l file opts junk,
  create_all [] defs = Some l ->
  l = defs /\ NoDup (map fst l) /\ NoDup (map snd l) /\
  ((forall x y, In x (map snd l) -> In y (map snd l) -> file x = file y -> x = y) -> NoDup (map o_dev (map (new_obj file opts junk) l))).
Proof.
  intros defs l file opts jk E. destruct (create_all_ok defs [] l E (NoDup_nil _) (NoDup_nil _)) as (L & N1 & N2).
  split; [exact L|]. split; [exact N1|]. split; [exact N2|]. intros J. rewrite map_map.
  replace (map (fun x => o_dev (new_obj file opts jk x)) l) with (map file (map snd l)) by (rewrite map_map; reflexivity).
  apply NoDup_map_inj; assumption.
Qed.
(** ... and a definition that gives a name twice is refused *)
Theorem C95_refused : forall defs,
  create_all [] defs = None <-> ~ (NoDup (map fst defs) /\ NoDup (map snd defs)).
Proof.
  intros defs. split.
  - intros E (N1 & N2). rewrite (create_all_takes defs []) in E; [discriminate | exact N1 | exact N2].
  - intros X. destruct (create_all [] defs) as [l|] eqn:E; [|reflexivity]. exfalso. apply X.
    destruct (create_all_ok defs [] l E (NoDup_nil _) (NoDup_nil _)) as (-> & N1 & N2). split; assumption.
Qed.
Example C95_distinct_example :
  create_all [] [(zs "a", zs "/dev/ttyS0"); (zs "b", zs "/dev/ttyS1")] <> None /\
  create_all [] [(zs "a", zs "/dev/ttyS0"); (zs "b", zs "/dev/ttyS0")] = None.
Proof. vm_compute. split; [discriminate | reflexivity]. Qed.

(** Names of devices are compared as text: "/dev/ttyS0" and "/dev/../dev/ttyS0", or a link, are
    two consoles on one device.  Both open it, since a process's own lock does not stop it, and
    each sets it as configured for itself; when one of them is shut down, the process loses its
    lock, and another program can lock the device although the other console still has it open. *)
Theorem C95_alias_refuted : exists defs l w1 w2,
  create_all [] defs = Some l /\
  history all 10 (start_ usual (map (new_obj (fun _ => 5%nat) o7E2 junk) l)) [Open 0 true None; Open 1 true None] = Ok w1 /\
  is_open w1 0 = true /\ is_open w1 1 = true /\
  history all 10 w1 [Hangup 1 false None] = Ok w2 /\ life_ w2 = Alive /\ is_open w2 0 = true /\ lockable w2 5.
Proof.
  exists [(zs "a", zs "/dev/ttyS0"); (zs "b", zs "/dev/../dev/ttyS0")]. eexists. eexists. eexists.
  split; [vm_compute; reflexivity|]. split; [vm_compute; reflexivity|]. split; [reflexivity|]. split; [reflexivity|].
  split; [vm_compute; reflexivity|]. split; [reflexivity|]. split; [reflexivity|]. exists 1%nat, 55, true. vm_compute. discriminate.
Qed.

Print Assumptions C93_configured_partial.
Print Assumptions C93_transparent_partial.
Print Assumptions C93_parity_refuted.
Print Assumptions C93_transparent_refuted.
Print Assumptions C93_unsupported_refuted.
Print Assumptions C73_serial_refuted.
Print Assumptions C94_given_back_partial.
Print Assumptions C94_hangup_refuted.
Print Assumptions C94_stopped_refuted.
Print Assumptions C94_fatal_refuted.
Print Assumptions C95_locked.
Print Assumptions C95_distinct_partial.
Print Assumptions C95_refused.
Print Assumptions C95_alias_refuted.
