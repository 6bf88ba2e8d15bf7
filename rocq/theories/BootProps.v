(** Theorems about the start of the daemon (C91, C92). *)
From Coq Require Import String.
From Verif Require Import Base BaseProof Chars Mem StrModel StrSpec StrProof MsgModel MsgSpec MsgProof BootModel BootSpec BootProof.
Local Open Scope nat_scope.

Section C91.
Variables (m_pipe m_fork m_pclose m_read1 m_read2 m_cclose m_setsid m_fork2 m_close : msg) (w1 w2 w3 : list msg).
Variables (buf msgbuf stamp pbuf pstamp rest : list Z).
Let stp := step m_pipe m_fork m_pclose m_read1 m_read2 m_cclose m_setsid m_fork2 m_close w1 w2 w3 buf msgbuf stamp pbuf pstamp rest.

(** Whatever the three processes' order, and whichever call of the start-up fails: if
    `conmand' exits with 0, none has failed and the daemon is up; if it exits with 1, one
    has failed, nothing is left running, and the terminal shows the error, once, as the
    failing process has formatted it - no matter which of the two prints it. *)
Theorem C91_status n l s : Forall msg_ok ([m_pipe; m_fork; m_cclose; m_setsid; m_fork2] ++ w1 ++ w2) ->
  length buf = MAX_LINE -> length msgbuf = MAX_LINE -> stamp_ok stamp -> length pbuf = MAX_LINE -> stamp_ok pstamp ->
  goes m_pipe m_fork stp boot n l s ->
  match pp s with
  | PDone c => c = 0%Z /\ l = [] /\ tty s = [] /\ started w3 s \/
               c = 1%Z /\ (exists m, l = [m] /\ tty s = [err_line m]) /\ gone (ch s) /\ gone (gc s)
  | PBad => False
  | _ => True
  end.
Proof.
  intros F LB LM SO LP PO G. apply Forall_app in F. destruct F as [F FW]. apply Forall_app in FW. destruct FW as [F1 F2].
  inversion_clear F as [|? ? A1 F3]. inversion_clear F3 as [|? ? A2 F4]. inversion_clear F4 as [|? ? A3 F5]. inversion_clear F5 as [|? ? A4 F6]. inversion_clear F6 as [|? ? A5 _].
  apply inv_goes in G; auto. destruct G as [q Q|m|p q pi tt l L|p q pi tt l L].
  - destruct Q as [-> | ->]; exact I.
  - cbn [pp tty ch gc]. right. split; auto. split; [eauto|]. split; exact I.
  - cbn [pp tty ch gc]. remember true as c eqn:EC.
    destruct L as [c p q R E|p q U E|c m t0 q M E|c m t0 q M E|c m q pi M E|c m q pi M E|c m q pi tt M E]; try discriminate.
    + destruct E as [-> | ->]; exact I.
    + destruct E as [-> | ->]; exact I.
    + destruct E as [-> | ->]; exact I.
    + destruct E as [[[-> | ->] _]|[-> _]]; exact I.
    + destruct E as [[[-> | ->] _]|[[-> _]|[-> _]]]; try exact I. right. split; auto. split; [eauto|]. split; [eexists; reflexivity|exact I].
    + destruct E as [[[-> | ->] _]|[[-> _]|[-> [_ ->]]]]; try exact I. right. split; auto. split; [eauto|]. split; [eexists; reflexivity|exact I].
  - cbn [pp tty ch gc].
    destruct L as [c p q R E|p q U E|c m t0 q M E|c m t0 q M E|c m q pi M E|c m q pi M E|c m q pi tt M E].
    + destruct E as [-> | ->]; exact I.
    + destruct E as [[-> | ->]| ->]; try exact I. left. split; auto. split; auto. split; auto. unfold started. cbn [gc]. destruct U as [k|]; cbn [p_pc p_end]; eauto.
    + destruct E as [-> | ->]; exact I.
    + destruct E as [-> | ->]; exact I.
    + destruct E as [[[-> | ->] _]|[-> _]]; exact I.
    + destruct E as [[[-> | ->] _]|[[-> _]|[-> _]]]; try exact I. right. split; auto. split; [eauto|]. split; eexists; reflexivity.
    + destruct E as [[[-> | ->] _]|[[-> _]|[-> [_ ->]]]]; try exact I. right. split; auto. split; [eauto|]. split; eexists; reflexivity.
Qed.

(** And it does exit: no run is longer than the calls there are, and as long as the parent
    waits, someone can go on. *)
Definition weight (p : proc) : nat := match p_pc p with Run l => length l + 4 | Say _ => 3 | Tell _ => 2 | Send _ => 1 | _ => 0 end.
Definition pweight (q : ppc) : nat := match q with PPipe => 5 | PFork => 4 | PClose => 3 | PRead => 2 | PMsg => 1 | _ => 0 end.
Definition total (s : st) : nat :=
  pweight (pp s) + match ch s with Some p => weight p | None => 8 end + match gc s with Some p => weight p | None => length w1 + length w2 + length w3 + 8 end.
Lemma acts_length : length (daemon_acts m_close w1 w2 w3) = length w1 + length w2 + length w3 + 3.
Proof. unfold daemon_acts. rewrite app_length, map_length. cbn [length]. rewrite app_length, map_length. cbn [length]. rewrite map_length. lia. Qed.
Lemma step_proc_less p ok p' o t g : step_proc m_close w1 w2 w3 buf msgbuf stamp p ok = Some (p', o, t, g) ->
  match g with None => weight p' < weight p | Some d => weight d = length w1 + length w2 + length w3 + 7 /\ weight p' < weight p end.
Proof.
  unfold step_proc, weight. destruct p as [c ty rp en]. cbn [p_pc p_tty p_rep p_end].
  destruct c as [[|[m|m| | |m] l]|m|m|m|c|]; intros X; try discriminate.
  - injection X as <- <- <- <-. cbn [p_pc length]. lia.
  - injection X as <- <- <- <-. destruct ok; cbn [p_pc length]; lia.
  - destruct ok; injection X as <- <- <- <-; cbn [p_pc length]; [rewrite acts_length; lia|lia].
  - injection X as <- <- <- <-. cbn [p_pc length]. lia.
  - injection X as <- <- <- <-. cbn [p_pc length]. lia.
  - injection X as <- <- <- <-. destruct ok; cbn [p_pc length]; lia.
  - injection X as <- <- <- <-. destruct rp; cbn [p_pc]; lia.
  - destruct ok; injection X as <- <- <- <-; [|cbn [p_pc]; lia]. destruct (told _ _ _ m); [cbn [p_pc]; lia|]. destruct ty; cbn [p_pc]; lia.
  - injection X as <- <- <- <-. cbn [p_pc]. lia.
Qed.
Lemma step_less s w ok s' : (pp s = PFork -> ch s = None) -> (gc s <> None -> ch s = Some reaped) -> stp s (Step w ok) = Some s' -> total s' < total s.
Proof.
  intros HF HG. unfold stp, total. destruct w; cbn [step].
  - unfold parent. destruct s as [q c g pi tt]. cbn [pp ch gc pipe tty] in *. destruct q; intros X; try discriminate.
    + destruct ok; injection X as <-; cbn [pp ch gc pweight]; lia.
    + destruct ok; injection X as <-; cbn [pp ch gc pweight]; [|lia]. rewrite (HF eq_refl). unfold weight at 1. cbn [p_pc child_acts length]. lia.
    + destruct ok; injection X as <-; cbn [pp ch gc pweight]; lia.
    + destruct ok; [|injection X as <-; cbn [pp ch gc pweight]; lia]. destruct pi as [|b pi]; [destruct (held _); [discriminate|]|destruct (0 <=? b)%Z]; injection X as <-; cbn [pp ch gc pweight]; lia.
    + destruct ok; [|injection X as <-; cbn [pp ch gc pweight]; lia]. destruct pi as [|b pi]; [destruct (held _); [discriminate|]|destruct (hear _ _ _ _) as [[|]|]]; injection X as <-; cbn [pp ch gc pweight]; lia.
  - destruct (ch s) as [p|] eqn:EC; [|discriminate]. assert (HP : gc s <> None -> p = reaped) by (intros N; specialize (HG N); congruence). destruct (step_proc _ _ _ _ _ _ _ p ok) as [[[[p' o] t] g]|] eqn:E; [|discriminate]. intros X. injection X as <-. cbn [pp ch gc].
    destruct (gc s) as [p0|] eqn:EG; [rewrite HP in E by discriminate; discriminate|]. apply step_proc_less in E. destruct g as [d|]; lia.
  - destruct (gc s) as [p|]; [|discriminate]. destruct (step_proc _ _ _ _ _ _ _ p ok) as [[[[p' o] t] g]|] eqn:E; [|discriminate]. intros X. injection X as <-. cbn [pp ch gc].
    apply step_proc_less in E. destruct g as [d|]; lia.
Qed.
Hypotheses (OK : Forall msg_ok ([m_pipe; m_fork; m_cclose; m_setsid; m_fork2] ++ w1 ++ w2)) (LB : length buf = MAX_LINE) (LM : length msgbuf = MAX_LINE) (SO : stamp_ok stamp) (LPB : length pbuf = MAX_LINE) (PSO : stamp_ok pstamp).
Lemma all_inv n l s : goes m_pipe m_fork stp boot n l s -> inv m_cclose m_setsid m_fork2 m_close w2 w3 s l.
Proof.
  intros G. apply Forall_app in OK. destruct OK as [F FW]. apply Forall_app in FW. destruct FW as [F1 F2].
  inversion_clear F as [|? ? A1 F3]. inversion_clear F3 as [|? ? A2 F4]. inversion_clear F4 as [|? ? A3 F5]. inversion_clear F5 as [|? ? A4 F6]. inversion_clear F6 as [|? ? A5 _].
  apply inv_goes in G; auto.
Qed.
Lemma life_fork c p pi tt l : ~ life m_cclose m_setsid m_fork2 m_close w2 w3 c p PFork pi tt l.
Proof.
  intros L. remember PFork as q eqn:Q.
  destruct L as [? ? ? ? [-> | ->]|? ? ? [[-> | ->]| ->]|? ? ? ? ? [-> | ->]|? ? ? ? ? [-> | ->]|? ? ? ? ? [[[-> | ->] _]|[-> _]]|? ? ? ? ? [[[-> | ->] _]|[[-> _]|[-> _]]]|? ? ? ? ? ? [[[-> | ->] _]|[[-> _]|[-> _]]]]; discriminate.
Qed.
Lemma total_goes n l s : goes m_pipe m_fork stp boot n l s -> n + total s <= length w1 + length w2 + length w3 + 21.
Proof.
  induction 1 as [|n l s e s' G IH CA E].
  - unfold total, boot. cbn [pp ch gc pweight]. lia.
  - apply all_inv in G. destruct e as [w ok|w]; [|destruct CA]. apply step_less in E; [lia| |].
    + destruct G as [q Q|m|p q pi tt l L|p q pi tt l L]; cbn [pp ch]; auto; intros ->; exfalso; eapply life_fork; eauto.
    + destruct G as [q Q|m|p q pi tt l L|p q pi tt l L]; cbn [gc ch]; auto; congruence.
Qed.
(** The program ends in at most this many steps, and it ends with the parent's exit. *)
Theorem C91_ends n l s : goes m_pipe m_fork stp boot n l s ->
  n <= length w1 + length w2 + length w3 + 21 /\
  ((forall w, stp s (Step w true) = None) -> (exists c, pp s = PDone c) /\ match gc s with Some p => p_pc p = Serving \/ exists c, p_pc p = Exit c | None => True end).
Proof.
  intros G. split; [apply total_goes in G; lia|]. intros ST. apply all_inv in G.
  pose proof (ST Parent) as SP. pose proof (ST Child) as SC. pose proof (ST Daemon) as SD. clear ST. unfold stp in *. cbn [step] in *.
  destruct G as [q Q|m|p q pi tt l L|p q pi tt l L]; cbn [pp ch gc pipe tty] in *.
  - destruct Q as [-> | ->]; discriminate.
  - split; eauto.
  - split; [|exact I]. clear SD. assert (LL : exists c, c = true /\ life m_cclose m_setsid m_fork2 m_close w2 w3 c p q pi tt l) by eauto. clear L. destruct LL as (c & EC & L).
    destruct L as [c p q R E|p q U E|c m t0 q M E|c m t0 q M E|c m q pi M E|c m q pi M E|c m q pi tt M E]; try discriminate.
    + subst c. inversion R; subst; discriminate.
    + unfold parent, held in SP. cbn [pp ch gc pipe tty p_end] in SP. destruct E as [[[-> | ->] ->]|[[-> ->]|[-> ->]]]; try discriminate. eauto.
    + unfold parent, held in SP. cbn [pp ch gc pipe tty p_end] in SP. destruct E as [[[-> | ->] [-> ->]]|[[-> [-> ->]]|[-> [-> ->]]]]; try discriminate; [|eauto].
      destruct (body m ++ [NUL]) eqn:EB; [destruct (body m); discriminate|]. destruct (hear _ _ _ _) as [[|]|]; discriminate.
  - clear SC.
    destruct L as [c p q R E|p q U E|c m t0 q M E|c m t0 q M E|c m q pi M E|c m q pi M E|c m q pi tt M E]; try discriminate.
    + exfalso. destruct R as [| | |w FW|w FW|]; try discriminate; destruct w; discriminate.
    + destruct U as [k|]; [exfalso; destruct (skipn k w3); discriminate|]. split; [|auto]. unfold parent, held in SP. cbn [pp ch gc pipe tty p_end reaped] in SP. destruct E as [[-> | ->]| ->]; try discriminate. eauto.
    + split; [|right; eexists; reflexivity]. unfold parent, held in SP. cbn [pp ch gc pipe tty p_end reaped] in SP. destruct E as [[[-> | ->] ->]|[[-> ->]|[-> ->]]]; try discriminate. eauto.
    + split; [|right; eexists; reflexivity]. unfold parent, held in SP. cbn [pp ch gc pipe tty p_end reaped] in SP. destruct E as [[[-> | ->] [-> ->]]|[[-> [-> ->]]|[-> [-> ->]]]]; try discriminate; [|eauto].
      destruct (body m ++ [NUL]) eqn:EB; [destruct (body m); discriminate|]. destruct (hear _ _ _ _) as [[|]|]; discriminate.
Qed.
End C91.

(** The error as log_err formats it, and as the parent shows it. *)
Theorem C91_text buf msgbuf stamp pbuf pstamp rest m : length buf = MAX_LINE -> length msgbuf = MAX_LINE -> stamp_ok stamp -> length pbuf = MAX_LINE -> stamp_ok pstamp -> msg_ok m ->
  exists t, log_err buf msgbuf stamp m = Ok (err_line m, t) /\ t <> [] /\ length (t ++ [NUL]) <= MAX_LINE /\ hear pbuf pstamp (t ++ [NUL]) rest = Ok (err_line m) /\
  (length (words m) <= Z.to_nat 991 -> err_line m = zs "ERROR:     " ++ words m ++ [LF]).
Proof.
  intros LB LM SO LP PO M. exists (body m). destruct (body_ok m M) as (_ & BL & BE). pose proof big as BG. split; [apply log_err_ok; auto|]. split; auto. split; [rewrite app_length; cbn [length]; lia|]. split; [apply hear_ok; auto|].
  intros L. rewrite err_split. unfold body. rewrite firstn_all2 by auto. reflexivity.
Qed.

(** ** What the status does not tell *)
Definition m0 : msg := mkMsg (zs "%s") (zs "no") None.
Definition ex_run (w1 w2 w3 : list msg) (l : list ev) : option st :=
  run m0 m0 m0 m0 m0 m0 m0 m0 m0 w1 w2 w3 (repeat 0%Z MAX_LINE) (repeat 0%Z MAX_LINE) (repeat 32%Z 20) (repeat 0%Z MAX_LINE) (repeat 32%Z 20) [] boot l.
Definition go (w : who) (n : nat) : list ev := repeat (Step w true) n.

(** A daemon that crashes or is killed while it starts: `conmand' says nothing and exits
    with 0. *)
Theorem C91_killed_refuted : exists s, ex_run [m0] [m0] [] (go Parent 3 ++ go Child 3 ++ [Kill Daemon] ++ go Parent 1) = Some s /\
  pp s = PDone 0 /\ tty s = [] /\ gone (gc s) /\ gone (ch s).
Proof. eexists. split; [vm_compute; reflexivity|]. repeat split; eexists; reflexivity. Qed.
(** What fails after the daemon has detached itself - the limit of open files
    (server.c:711) - is not told either. *)
Theorem C91_late_refuted : exists s, ex_run [m0] [m0] [m0] (go Parent 3 ++ go Child 3 ++ go Daemon 5 ++ [Step Daemon false; Step Daemon true] ++ go Parent 1) = Some s /\
  pp s = PDone 0 /\ tty s = [] /\ gone (gc s) /\ gone (ch s).
Proof. eexists. split; [vm_compute; reflexivity|]. repeat split; eexists; reflexivity. Qed.
(** Nor is a failing close() of the pipe: log_fd_daemonize is already -1. *)
Theorem C91_close_refuted : exists s, ex_run [m0] [m0] [] (go Parent 3 ++ go Child 3 ++ go Daemon 4 ++ [Step Daemon false; Step Daemon true] ++ go Parent 1) = Some s /\
  pp s = PDone 0 /\ tty s = [] /\ gone (gc s) /\ gone (ch s).
Proof. eexists. split; [vm_compute; reflexivity|]. repeat split; eexists; reflexivity. Qed.
(** A read() of the parent that fails: the status is 1, but the daemon is up. *)
Theorem C91_read_refuted : exists s, ex_run [m0] [m0] [] (go Parent 3 ++ go Child 3 ++ [Step Parent false] ++ go Daemon 6) = Some s /\
  pp s = PDone 1 /\ match gc s with Some p => p_pc p = Serving | None => False end.
Proof. eexists. split; [vm_compute; reflexivity|]. repeat split; reflexivity. Qed.
(** A failing start, told over the pipe. *)
Example C91_example : msg_ok m0 /\ stamp_ok (repeat 32%Z 20) /\ exists s, ex_run [m0] [m0] [] (go Parent 3 ++ go Child 3 ++ go Daemon 2 ++ [Step Daemon false] ++ go Daemon 2 ++ go Parent 1 ++ go Daemon 1 ++ go Parent 1) = Some s /\
  pp s = PDone 1 /\ tty s = [zs "ERROR:     no" ++ [LF]] /\ gone (gc s).
Proof.
  split; [|split].
  - split; [discriminate|]. split; [discriminate|]. split; [discriminate|]. split; [|discriminate]. split; [repeat (apply Forall_cons; [cbv; split; discriminate || reflexivity|]); apply Forall_nil|]. intros [X|[X|[]]]; discriminate.
  - split; [|reflexivity]. apply Forall_forall. intros c I. apply repeat_spec in I. subst c. cbv. split; discriminate || reflexivity.
  - eexists. split; [vm_compute; reflexivity|]. split; [reflexivity|]. split; [reflexivity|]. eexists. reflexivity.
Qed.

(** ** C92 *)
Lemma lowest_free n : forall t k j, lowest n t k = Some j -> t j = None.
Proof. induction n as [|n IH]; intros t k j E; [discriminate|]. cbn [lowest] in E. destruct (t k) eqn:T; [eauto|]. injection E as <-. auto. Qed.
Lemma open_spec limit t f t' j : open_ limit t f = Some (t', j) -> t j = None /\ t' j = Some f /\ forall k, k <> j -> t' k = t k.
Proof.
  unfold open_. destruct (lowest limit t 0) as [i|] eqn:E; [|discriminate]. intros X. injection X as <- <-. split; [eapply lowest_free; eauto|]. unfold upd. rewrite Nat.eqb_refl. split; auto.
  intros k N. apply Nat.eqb_neq in N. rewrite N. auto.
Qed.
Lemma dup2_spec t a b : a <> b -> forall k, dup2 t a b k = if k =? b then t a else t k.
Proof. intros N k. unfold dup2. apply Nat.eqb_neq in N. rewrite N. reflexivity. Qed.
Lemma end_spec limit t rep1 t' : t 0 <> None -> t 1 <> None -> t 2 <> None -> t rep1 <> None -> 2 < rep1 -> end_fds limit t rep1 = Some t' ->
  (forall k, k <= 2 -> t' k = Some Null) /\ t' rep1 = None /\ forall k, 2 < k -> k <> rep1 -> t' k = t k.
Proof.
  intros T0 T1 T2 TR R. unfold end_fds, obind. destruct (open_ limit t Null) as [[t1 d]|] eqn:E; [|discriminate]. apply open_spec in E. destruct E as (D & D1 & DK).
  assert (N0 : d <> 0) by congruence. assert (N1 : d <> 1) by congruence. assert (N2 : d <> 2) by congruence. assert (NR : d <> rep1) by congruence.
  intros X. injection X as <-. unfold close_, upd.
  assert (G : forall k, dup2 (dup2 (dup2 t1 d 0) d 1) d 2 k = if k <=? 2 then Some Null else t1 k).
  { intros k. rewrite !dup2_spec by auto. destruct (Nat.eqb_spec d 0); [congruence|]. destruct (Nat.eqb_spec d 1); [congruence|]. rewrite D1.
    destruct (Nat.eqb_spec k 2) as [->|]; [reflexivity|]. destruct (Nat.eqb_spec k 1) as [->|]; [reflexivity|]. destruct (Nat.eqb_spec k 0) as [->|]; [reflexivity|].
    destruct (Nat.leb_spec k 2); [lia|]. auto. }
  split; [|split].
  - intros k L. destruct (Nat.eqb_spec k rep1); [lia|]. destruct (Nat.eqb_spec k d); [lia|]. rewrite G. destruct (Nat.leb_spec k 2); [auto|lia].
  - rewrite Nat.eqb_refl. auto.
  - intros k L N. destruct (Nat.eqb_spec k rep1); [congruence|]. destruct (Nat.eqb_spec k d) as [->|]; [auto|]. rewrite G. destruct (Nat.leb_spec k 2); [lia|]. auto.
Qed.

Lemma big3 a : a <> 0 -> a <> 1 -> a <> 2 -> 2 < a.
Proof. lia. Qed.
Lemma small_ne k e : k <= 2 -> 2 < e -> k <> e.
Proof. lia. Qed.
Ltac lia2 := clear; lia.
Ltac dn := first [assumption | apply not_eq_sym; assumption | eapply small_ne; eassumption | apply small_ne; [clear; lia|assumption] | apply not_eq_sym; eapply small_ne; eassumption | clear; lia | congruence].
(** Started with standard input, output and error open, the daemon ends up with these three
    on /dev/null, its files are where it believes them to be, and nothing else has been
    opened or closed. *)
Theorem C92_descriptors limit logs t t' r : t 0 <> None -> t 1 <> None -> t 2 <> None -> boot_fds limit logs t = Some (t', r) ->
  (forall k, k <= 2 -> t' k = Some Null) /\
  t' (r_wake0 r) = Some Wake0 /\ t' (r_wake1 r) = Some Wake1 /\ t' (r_conf r) = Some Conf /\ t' (r_sock r) = Some Sock /\
  (if logs then exists l, r_log r = Some l /\ t' l = Some Logf else r_log r = None) /\
  forall k, 2 < k -> k <> r_wake0 r -> k <> r_wake1 r -> k <> r_conf r -> k <> r_sock r -> r_log r <> Some k -> t' k = t k.
Proof.
  intros T0 T1 T2. unfold boot_fds, obind.
  destruct (open_ limit t Wake0) as [[t1 a]|] eqn:E; [|discriminate]. apply open_spec in E. destruct E as (A1 & A2 & A3).
  destruct (open_ limit t1 Wake1) as [[t2 b]|] eqn:E; [|discriminate]. apply open_spec in E. destruct E as (B1 & B2 & B3).
  destruct (open_ limit t2 Rep0) as [[t3 c]|] eqn:E; [|discriminate]. apply open_spec in E. destruct E as (C1 & C2 & C3).
  destruct (open_ limit t3 Rep1) as [[t4 d]|] eqn:E; [|discriminate]. apply open_spec in E. destruct E as (D1 & D2 & D3).
  assert (LA : 2 < a) by (apply big3; congruence).
  assert (AT : forall k, k <= 2 -> t1 k = t k) by (intros k L; apply A3; dn).
  assert (LB : 2 < b) by (apply big3; intros ->; rewrite AT in B1 by lia2; congruence). assert (NBA : b <> a) by (intros ->; congruence).
  assert (BT : forall k, k <= 2 -> t2 k = t k) by (intros k L; rewrite B3, AT by dn; auto).
  assert (EA2 : t2 a = Some Wake0) by (rewrite B3 by dn; auto).
  assert (LC : 2 < c) by (apply big3; intros ->; rewrite BT in C1 by lia2; congruence). assert (NCA : c <> a) by (intros ->; congruence). assert (NCB : c <> b) by (intros ->; congruence).
  assert (CT : forall k, k <= 2 -> t3 k = t k) by (intros k L; rewrite C3, BT by dn; auto).
  assert (EA3 : t3 a = Some Wake0) by (rewrite C3 by dn; auto). assert (EB3 : t3 b = Some Wake1) by (rewrite C3 by dn; auto).
  assert (LD : 2 < d) by (apply big3; intros ->; rewrite CT in D1 by lia2; congruence). assert (NDA : d <> a) by (intros ->; congruence). assert (NDB : d <> b) by (intros ->; congruence). assert (NDC : d <> c) by (intros ->; congruence).
  assert (DT : forall k, k <= 2 -> t4 k = t k) by (intros k L; rewrite D3, CT by dn; auto).
  set (t5 := close_ t4 c).
  assert (E5 : t5 c = None) by (unfold t5, close_, upd; rewrite Nat.eqb_refl; auto).
  assert (O5 : forall k, k <> c -> t5 k = t4 k) by (intros k N; unfold t5, close_, upd; apply Nat.eqb_neq in N; rewrite N; auto).
  clearbody t5.
  assert (T5 : forall k, k <= 2 -> t5 k = t k) by (intros k L; rewrite O5, DT by dn; auto).
  assert (EA5 : t5 a = Some Wake0) by (rewrite O5, D3 by dn; auto). assert (EB5 : t5 b = Some Wake1) by (rewrite O5, D3 by dn; auto). assert (ED5 : t5 d = Some Rep1) by (rewrite O5 by dn; auto).
  assert (OT5 : forall k, k <> a -> k <> b -> k <> d -> t5 k = t k).
  { intros k NA NB ND. destruct (Nat.eq_dec k c) as [->|NC]; [rewrite E5; symmetry; rewrite <- A3, <- B3 by dn; auto|]. rewrite O5, D3, C3, B3, A3 by dn. auto. }
  destruct (open_ limit t5 Conf) as [[t6 e]|] eqn:E; [|discriminate]. apply open_spec in E. destruct E as (F1 & F2 & F3).
  assert (LE : 2 < e) by (apply big3; intros ->; rewrite T5 in F1 by lia2; congruence). assert (NEA : e <> a) by (intros ->; congruence). assert (NEB : e <> b) by (intros ->; congruence). assert (NED : e <> d) by (intros ->; congruence).
  destruct (open_ limit t6 Sock) as [[t7 s]|] eqn:E; [|discriminate]. apply open_spec in E. destruct E as (S1 & S2 & S3).
  assert (T6 : forall k, k <= 2 -> t6 k = t k) by (intros k L; rewrite F3, T5 by dn; auto).
  assert (EA6 : t6 a = Some Wake0) by (rewrite F3 by dn; auto). assert (EB6 : t6 b = Some Wake1) by (rewrite F3 by dn; auto). assert (ED6 : t6 d = Some Rep1) by (rewrite F3 by dn; auto).
  assert (LS : 2 < s) by (apply big3; intros ->; rewrite T6 in S1 by lia2; congruence). assert (NSA : s <> a) by (intros ->; congruence). assert (NSB : s <> b) by (intros ->; congruence). assert (NSD : s <> d) by (intros ->; congruence). assert (NSE : s <> e) by (intros ->; congruence).
  assert (T7 : forall k, k <= 2 -> t7 k = t k) by (intros k L; rewrite S3, T6 by dn; auto).
  assert (EA7 : t7 a = Some Wake0) by (rewrite S3 by dn; auto). assert (EB7 : t7 b = Some Wake1) by (rewrite S3 by dn; auto). assert (ED7 : t7 d = Some Rep1) by (rewrite S3 by dn; auto). assert (EE7 : t7 e = Some Conf) by (rewrite S3 by dn; auto).
  assert (OT7 : forall k, k <> a -> k <> b -> k <> d -> k <> e -> k <> s -> t7 k = t k) by (intros k NA NB ND NE NS; rewrite S3, F3 by dn; auto).
  destruct logs.
  - destruct (open_ limit t7 Logf) as [[t8 g]|] eqn:E; [|discriminate]. apply open_spec in E. destruct E as (G1 & G2 & G3).
    assert (LG : 2 < g) by (apply big3; intros ->; rewrite T7 in G1 by lia2; congruence). assert (NGA : g <> a) by (intros ->; congruence). assert (NGB : g <> b) by (intros ->; congruence). assert (NGD : g <> d) by (intros ->; congruence). assert (NGE : g <> e) by (intros ->; congruence). assert (NGS : g <> s) by (intros ->; congruence).
    destruct (end_fds limit t8 d) as [t9|] eqn:E; [|discriminate]. intros X. injection X as <- <-. cbn [r_wake0 r_wake1 r_conf r_sock r_log].
    apply end_spec in E; [|rewrite G3, T7 by dn; auto|rewrite G3, T7 by dn; auto|rewrite G3, T7 by dn; auto|rewrite G3 by dn; congruence|assumption]. destruct E as (H1 & H2 & H3).
    split; auto. split; [rewrite H3, G3 by dn; auto|]. split; [rewrite H3, G3 by dn; auto|]. split; [rewrite H3, G3 by dn; auto|]. split; [rewrite H3, G3 by dn; auto|].
    split; [exists g; split; auto; rewrite H3 by dn; auto|]. intros k LK NA NB NE NS NG. assert (NG' : k <> g) by congruence. destruct (Nat.eq_dec k d) as [->|ND].
    + rewrite H2. symmetry. rewrite <- A3, <- B3, <- C3 by dn. auto.
    + rewrite H3, G3 by auto. auto.
  - destruct (end_fds limit t7 d) as [t9|] eqn:E; [|discriminate]. intros X. injection X as <- <-. cbn [r_wake0 r_wake1 r_conf r_sock r_log].
    apply end_spec in E; [|rewrite T7 by dn; auto|rewrite T7 by dn; auto|rewrite T7 by dn; auto|congruence|assumption]. destruct E as (H1 & H2 & H3).
    split; auto. split; [rewrite H3 by dn; auto|]. split; [rewrite H3 by dn; auto|]. split; [rewrite H3 by dn; auto|]. split; [rewrite H3 by dn; auto|]. split; auto.
    intros k LK NA NB NE NS _. destruct (Nat.eq_dec k d) as [->|ND].
    + rewrite H2. symmetry. rewrite <- A3, <- B3, <- C3 by dn. auto.
    + rewrite H3 by auto. auto.
Qed.

(** Started with standard input closed, as `conmand <&-', the daemon replaces the pipe that
    wakes tpoll() by /dev/null: the first wake-up reads an EOF, which is fatal
    (tpoll.c:808). *)
Theorem C92_no_stdin_refuted : exists t' r, boot_fds 100 true (fun k => if k =? 0 then None else if k <=? 2 then Some (Given k) else None) = Some (t', r) /\ t' (r_wake0 r) = Some Null.
Proof. do 2 eexists. split; [reflexivity|]. vm_compute. reflexivity. Qed.
(** With all three closed it replaces its configuration, too, and with that gives up the
    lock which keeps a second daemon away. *)
Theorem C92_none_open_refuted : exists t' r, boot_fds 100 true (fun _ => None) = Some (t', r) /\ t' (r_conf r) = Some Null.
Proof. do 2 eexists. split; [reflexivity|]. vm_compute. reflexivity. Qed.
Example C92_example : exists t' r, boot_fds 100 true (fun k => if k <=? 2 then Some (Given k) else None) = Some (t', r) /\ r = mkRoles 3 4 5 7 (Some 8) /\ t' 6 = None.
Proof. do 2 eexists. split; [reflexivity|]. split; vm_compute; reflexivity. Qed.

(** The daemon is in a session of its own without a terminal, it is not its leader and so
    never gets one; and the process group that it signals in the end is its own.  The ids
    that fork() gives are new ones. *)
Theorem C92_session p pid1 pid2 : pid1 <> i_pgid p -> pid2 <> pid1 ->
  exists d g, detach p pid1 pid2 = Some (d, g) /\ i_pid d = pid2 /\ i_sid d = pid1 /\ i_pgid d = g /\ i_ctty d = false /\ open_tty d = d.
Proof.
  intros N1 N2. unfold detach, setsid, forked, open_tty. cbn [i_pid i_sid i_pgid i_ctty]. destruct (Nat.eqb_spec (i_pgid p) pid1); [congruence|]. cbn [obind]. do 2 eexists. split; [reflexivity|].
  cbn [i_pid i_sid i_pgid i_ctty]. destruct (Nat.eqb_spec pid1 pid2); [congruence|]. auto.
Qed.

Print Assumptions C91_status.
Print Assumptions C91_ends.
Print Assumptions C91_text.
Print Assumptions C91_killed_refuted.
Print Assumptions C91_late_refuted.
Print Assumptions C91_close_refuted.
Print Assumptions C91_read_refuted.
Print Assumptions C92_descriptors.
Print Assumptions C92_no_stdin_refuted.
Print Assumptions C92_none_open_refuted.
Print Assumptions C92_session.
