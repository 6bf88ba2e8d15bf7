(** C80: the settings of a client come from the last place that names them.
    C81: a file with names gives the names on its lines.  C82: the user name is the caller's. *)
From Coq Require Import String.
From Verif Require Import Base BaseProof Mem Chars Fmt LexModel LexProof StrModel EnvModel CliModel CliSpec CliProof CliRun.
Local Open Scope Z_scope.
Local Open Scope list_scope.

(** ** C80 *)
(** The client prints its help, or goes on with what the sources decide and with the names that
    the options and then the arguments give. *)
Theorem C80_settings iso db uid login env tty buf l args n :
  In (n, uid) db -> env_ok env -> Forall (opt_ok iso (length buf)) l ->
  exists fs ns, opts_give iso (length buf) l fs /\ args_give args ns /\
  ((start iso db uid login env tty buf l args = Ok (Exit 0) /\
    (In OHelp l \/ (fs ++ ns = [] /\ exists k, k <> Query /\ chosen says_cmd Connect (sources env l) k))) \/
   (exists c, start iso db uid login env tty buf l args = Ok (Go c) /\ ~ In OHelp l /\ (c_cmd c = Query \/ fs ++ ns <> []) /\
    decided (sources env l) c /\ c_consoles c = fs ++ ns)).
Proof.
  intros I EO FO. destruct (opts_exist _ _ _ FO) as (fs & OG). destruct (args_exist args) as (ns & AG). destruct (who_total db uid login env n I) as (u & W).
  exists fs, ns. split; [exact OG|]. split; [exact AG|]. destruct (start_ok iso db uid login env tty buf l args u fs ns W EO FO OG AG) as (c & D & N & _ & _ & E). rewrite E.
  destruct (existsb _ l) eqn:H; [left; split; [reflexivity|]; left; apply existsb_help; exact H|]. assert (NH : ~ In OHelp l) by (rewrite <- existsb_help, H; discriminate). cbn [orb].
  destruct (c_cmd c) eqn:K.
  - rewrite N. destruct (fs ++ ns) eqn:X; [left; split; [reflexivity|]; right; split; [reflexivity|]; exists (c_cmd c); split; [congruence|]; apply D|]. right. exists c. split; [reflexivity|]. split; [exact NH|]. split; [right; discriminate|]. split; [exact D|rewrite N; reflexivity].
  - rewrite N. destruct (fs ++ ns) eqn:X; [left; split; [reflexivity|]; right; split; [reflexivity|]; exists (c_cmd c); split; [congruence|]; apply D|]. right. exists c. split; [reflexivity|]. split; [exact NH|]. split; [right; discriminate|]. split; [exact D|rewrite N; reflexivity].
  - right. exists c. split; [reflexivity|]. split; [exact NH|]. split; [left; exact K|]. split; [exact D|exact N].
Qed.
(** each of these is decided: two settings that the same sources decide are the same *)
Theorem C80_unique iso L S : (forall x y, chosen says_port 7890 S x -> chosen says_port 7890 S y -> x = y) /\
  (forall x y, chosen says_host (zs "127.0.0.1") S x -> chosen says_host (zs "127.0.0.1") S y -> x = y) /\
  (forall x y, chosen says_esc 38 S x -> chosen says_esc 38 S y -> x = y) /\
  (forall x y, chosen says_cmd Connect S x -> chosen says_cmd Connect S y -> x = y) /\
  (forall x y, chosen says_log None S x -> chosen says_log None S y -> x = y) /\
  (forall x y, chosen says_share (false, false) S x -> chosen says_share (false, false) S y -> x = y) /\
  (forall l ns ms, opts_give iso L l ns -> opts_give iso L l ms -> ns = ms) /\
  (forall args ns ms, args_give args ns -> args_give args ms -> ns = ms).
Proof.
  split; [|split; [|split; [|split; [|split; [|split; [|split]]]]]].
  - intros x y. apply chosen_unique. intros s a b [_ A] [_ B]. destruct s as [v|v|v|o]; try contradiction; try (destruct o; try contradiction); try (destruct A as (h & q & D & A), B as (h' & q' & D' & B); destruct (dest_unique _ _ _ _ _ D D') as [_ E]; injection E as <-; congruence). congruence.
  - intros x y. apply chosen_unique. intros s a b [_ A] [_ B]. destruct s as [v|v|v|o]; try contradiction; try (destruct o; try contradiction); destruct A as (q & D), B as (q' & D'); apply (dest_unique _ _ _ _ _ D D').
  - intros x y. apply chosen_unique. intros s a b A B. destruct s as [v|v|v|o]; try contradiction; try (destruct o; try contradiction); destruct A as (t & A), B as (t' & B); congruence.
  - intros x y. apply chosen_unique. intros s a b A B. destruct s as [v|v|v|o]; try contradiction; destruct o; try contradiction; cbn [says_cmd] in A, B; congruence.
  - intros x y. apply chosen_unique. intros s a b A B. destruct s as [v|v|v|o]; try contradiction; destruct o; try contradiction; cbn [says_log] in A, B; congruence.
  - intros x y. apply chosen_unique. intros s a b A B. destruct s as [v|v|v|o]; try contradiction; destruct o; try contradiction; cbn [says_share] in A, B; congruence.
  - apply opts_unique.
  - apply args_unique.
Qed.
(** a client never asks to force and to join *)
Theorem C80_exclusive S c : decided S c -> ~ (c_force c = true /\ c_join c = true).
Proof.
  intros D [A B]. destruct (c_cmd c) eqn:K.
  2:{ destruct (d_monitor _ _ D K) as (_ & E & _). congruence. }
  all: destruct (d_share _ _ D) as [(a & s & b & _ & H & _)|(E & _)]; [congruence| |congruence]; rewrite A, B in H; destruct s as [v|v|v|o]; try contradiction; destruct o; try contradiction; discriminate H.
Qed.
(** the first option that ends the client does so, whatever follows *)
Theorem C80_early iso db uid login env tty buf l o l' args n :
  In (n, uid) db -> env_ok env -> Forall (opt_ok iso (length buf)) l -> ends o ->
  start iso db uid login env tty buf (l ++ o :: l') args = match o with OInvalid => UB Fatal | _ => Ok (Exit 0) end.
Proof.
  intros I EO FO EN. destruct (opts_exist _ _ _ FO) as (fs & OG). destruct (who_total db uid login env n I) as (u & W). unfold start.
  destruct (create_client_conf db uid login env tty) as [c0|k] eqn:CR; [|unfold create_client_conf in CR; rewrite W in CR; discriminate CR].
  destruct (created_deciding _ _ _ _ _ _ CR) as (D0 & _). cbn [bind]. destruct (env_step env c0 EO D0) as (c1 & -> & D1 & _). cbn [bind]. unfold process_cmd_line.
  destruct (options_early iso buf l _ c1 false fs o l' FO OG EN D1) as (h' & ->). destruct EN as [E | [E | E]]; subst o; reflexivity.
Qed.
(** A port beyond 65535 is not refused: the client connects to the port with the same last 16
    bits, while its messages name the one that was asked for. *)
Theorem C80_port_refuted : exists c, start false [(zs "u", 7)] 7 None [] None (repeat 0 16) [ODest (zs "h:70000")] [zs "a"] = Ok (Go c) /\
  c_port c = 70000 /\ sin_port c = 4464.
Proof. eexists. split; [vm_compute; reflexivity|]. split; reflexivity. Qed.
(** within the range of ports, it is the one decided *)
Theorem C80_port c : 0 <= c_port c < 65536 -> sin_port c = c_port c.
Proof. intros H. unfold sin_port. apply Z.mod_small. exact H. Qed.

(** ** C81 *)
Theorem C81_file iso buf file ns cs : gives iso (length buf) file ns -> read_consoles_from_file iso buf cs (Some file) = Ok (cs ++ ns).
Proof. apply file_ok. Qed.
(** every file whose lines fit gives names, and only one list of them *)
Theorem C81_defined iso L ls last : Forall (fun l => ~ In LF l /\ (length l + 2 <= L)%nat) ls -> ~ In LF last -> (length last + 1 <= L)%nat -> text_ok iso (file_of ls last) ->
  exists ns, gives iso L (file_of ls last) ns /\ forall ms, gives iso L (file_of ls last) ms -> ms = ns.
Proof.
  intros F NL LL T. destruct (lists_total (ls ++ [last])) as (ns & LI). assert (G : gives iso L (file_of ls last) ns) by (exists ls, last; auto 8).
  exists ns. split; [exact G|]. intros ms G2. eapply gives_unique; eassumption.
Qed.
(** Whatever is in the file, also NULs and lines of any length, the buffer is not overrun, and
    each name is one: not empty, no blanks at its ends, and no comment. *)
Theorem C81_safe (iso : bool) buf file cs : (2 <= length buf)%nat -> Forall (fun c => 0 <= c < if iso then 128 else 256) file ->
  exists ns, read_consoles_from_file iso buf cs (Some file) = Ok (cs ++ ns) /\
  Forall (fun n => n <> [] /\ (length n < length buf)%nat /\ ~ In 0 n /\ stripped n n /\ (forall t, n <> HASH :: t)) ns.
Proof.
  intros LB F. destruct (read_safe iso (S (length file)) buf file cs LB F (Nat.lt_succ_diag_r _)) as (ns & E & G). exists ns. split; [exact E|].
  eapply Forall_impl; [|exact G]. intros n (A & B & C & R). split; [exact A|]. split; [exact B|]. split; [|exact R]. intros I. unfold text_ok in C. rewrite Forall_forall in C. specialize (C 0 I). lia.
Qed.
(** A comment line that is longer than the buffer is read in pieces: what does not fit is taken
    for the name of a console.  Here the file is one line, a comment. *)
Theorem C81_long_line_refuted iso buf cs t : (2 <= length buf)%nat -> (length t + 1 <= length buf)%nat -> text_ok iso t -> ~ In LF t -> stripped t t -> t <> [] -> (forall u, t <> HASH :: u) ->
  read_consoles_from_file iso buf cs (Some (HASH :: repeat 120 (length buf - 2) ++ t)) = Ok (cs ++ [t]).
Proof. apply long_comment. Qed.

(** ** C82 *)
(** Whatever login name and environment claim, the client gives the name of an account that has
    the caller's uid (or none, if that name is empty). *)
Theorem C82_user iso db uid login env tty buf l args c :
  start iso db uid login env tty buf l args = Ok (Go c) -> env_ok env -> Forall (opt_ok iso (length buf)) l ->
  exists n, In (n, uid) db /\ c_user c = match n with [] => None | _ => Some n end.
Proof.
  intros E EO FO. destruct (who db uid login env) as [u|k] eqn:W; [|unfold start, create_client_conf in E; rewrite W in E; discriminate E].
  destruct (opts_exist _ _ _ FO) as (fs & OG). destruct (args_exist args) as (ns & AG). destruct (start_ok iso db uid login env tty buf l args u fs ns W EO FO OG AG) as (c' & _ & _ & U & _ & E2).
  rewrite E in E2. destruct (_ || _); [discriminate E2|]. injection E2 as <-. rewrite U. eapply who_ok. exact W.
Qed.
(** of several accounts with the uid, it is the one that was logged in to; else the one that the
    environment names *)
Theorem C82_login db uid login env tty n : n <> [] -> In (n, uid) db -> (forall j, In (n, j) db -> j = uid) ->
  login = Some n \/ (login = None /\ getenv env (zs "USER") = Some n) \/ (login = None /\ getenv env (zs "USER") = None /\ getenv env (zs "LOGNAME") = Some n) ->
  exists c, create_client_conf db uid login env tty = Ok c /\ c_user c = Some n.
Proof.
  intros NE I U H. unfold create_client_conf.
  assert (W : who db uid login env = Ok (Some n)).
  { destruct H as [-> | [(-> & E) | (-> & E & E2)]]; [apply who_login; assumption|..]; rewrite <- (who_login db uid n env NE I U); unfold who; rewrite ?E, ?E2; reflexivity. }
  rewrite W. eexists. split; reflexivity.
Qed.
(** without an account for the uid there is no session *)
Theorem C82_no_account iso db uid login env tty buf l args : (forall n, ~ In (n, uid) db) -> start iso db uid login env tty buf l args = UB Fatal.
Proof.
  intros N. unfold start, create_client_conf. destruct (who db uid login env) as [u|k] eqn:W.
  - destruct (who_ok _ _ _ _ _ W) as (n & I & _). destruct (N n I).
  - unfold who in W. set (p := match login with Some _ => _ | None => _ end) in W. assert (G : getpwuid db uid = None).
    { unfold getpwuid. destruct (find _ db) as [[m i]|] eqn:FI; [|reflexivity]. apply find_some in FI. destruct FI as [I E]. cbn [snd] in E. apply Z.eqb_eq in E. subst i. destruct (N m I). }
    rewrite G in W. destruct (match p with Some n => getpwnam db n | None => None end) as [[m i]|]; [destruct (snd (m, i) =? uid); cbn [bind] in W|]; try discriminate W; injection W as <-; reflexivity.
Qed.

(** ** The hypotheses are met *)
Example C80_nonvacuous :
  let env := [zs "CONMAN_HOST=h1:4000"; zs "CONMAN_PORT=0"; zs "CONMAN_ESCAPE=^"; zs "USER=root"] in
  let l := [OJoin; ODest (zs ":5000"); OForce; OFile (Some (zs "  c1  # x" ++ [10; 35; 99; 10; 10; 99; 50])); OBcast] in
  env_ok env /\ Forall (opt_ok false 32) l /\ opts_give false 32 l [zs "c1  # x"; zs "c2"] /\ args_give [zs "a,,b,"; zs "c"] [zs "a"; zs "b"; zs "c"] /\
  exists c, start false [(zs "root", 0); (zs "u", 7)] 7 None env (Some (zs "/dev/pts/3")) (repeat 0 32) l [zs "a,,b,"; zs "c"] = Ok (Go c) /\
    c_port c = 5000 /\ c_host c = zs "h1" /\ c_esc c = 94 /\ c_force c = true /\ c_join c = false /\ c_bcast c = true /\
    c_consoles c = [zs "c1  # x"; zs "c2"; zs "a"; zs "b"; zs "c"] /\ c_user c = Some (zs "u") /\ c_tty c = Some (zs "pts/3").
Proof.
  intros env l.
  assert (GV : gives false 32 (zs "  c1  # x" ++ [10; 35; 99; 10; 10; 99; 50]) [zs "c1  # x"; zs "c2"]).
  { exists [zs "  c1  # x"; [35; 99]; []], [99; 50]. split; [reflexivity|]. split; [repeat constructor; cbv; try lia; intuition discriminate|]. split; [cbv; intuition discriminate|]. split; [cbv; lia|].
    split; [repeat constructor; cbv; discriminate|]. assert (ST : forall s, (forall c t, s = c :: t -> isspace c = false) -> (forall c t, s = t ++ [c] -> isspace c = false) -> stripped s s) by (intros s A B; exists [], []; rewrite app_nil_r; repeat split; auto; constructor).
    assert (LAST : forall s c (d : Z) t, s ++ [d] = t ++ [c] -> c = d) by (intros s c d t E; apply app_inj_tail in E; symmetry; apply E).
    cbn [app]. eapply lists_name.
    - exists [32; 32], []. split; [reflexivity|]. split; [repeat constructor|]. split; [constructor|]. split; [intros c t E; injection E as <- _; reflexivity|intros c t E; apply (LAST (zs "c1  # ") c 120 t) in E; subst c; reflexivity].
    - discriminate.
    - intros t E. discriminate E.
    - eapply lists_skip; [apply ST; [intros c t E; injection E as <- _; reflexivity|intros c t E; apply (LAST [35] c 99 t) in E; subst c; reflexivity]|right; eexists; reflexivity|].
      eapply lists_skip; [apply ST; [discriminate|intros c t E; destruct t; discriminate E]|left; reflexivity|].
      eapply lists_name; [apply ST; [intros c t E; injection E as <- _; reflexivity|intros c t E; apply (LAST [99] c 50 t) in E; subst c; reflexivity]|discriminate|intros t E; discriminate E|constructor]. }
  split. { split; intros v E; vm_compute in E; injection E as <-; [intros h q D|exists 0; vm_compute; reflexivity].
    assert (D2 : dest (zs "h1:4000") (zs "h1") (Some (zs "4000"))) by (split; [cbv; intuition discriminate|reflexivity]). destruct (dest_unique _ _ _ _ _ D D2) as [_ E]. injection E as ->. exists 4000. vm_compute. reflexivity. }
  split. { constructor; [exact I|]. constructor.
    - intros h q D. assert (D2 : dest (zs ":5000") [] (Some (zs "5000"))) by (split; [intros []|reflexivity]). destruct (dest_unique _ _ _ _ _ D D2) as [_ E]. injection E as ->. exists 5000. vm_compute. reflexivity.
    - constructor; [exact I|]. constructor; [eexists _, _; split; [reflexivity|exact GV]|]. constructor; [exact I|constructor]. }
  split. { apply og_other; [discriminate|]. apply og_other; [discriminate|]. apply og_other; [discriminate|]. apply (og_file false 32 _ [OBcast] [zs "c1  # x"; zs "c2"] []); [exact GV|]. apply og_other; [discriminate|constructor]. }
  split. { exists [[zs "a"; []; zs "b"; []]; [zs "c"]]. split; [reflexivity|]. split; [|reflexivity]. constructor; [|constructor; [|constructor]]; (split; [discriminate|]); repeat constructor; cbv; intuition discriminate. }
  eexists. split; [vm_compute; reflexivity|]. repeat split.
Qed.
Print Assumptions C80_settings.
Print Assumptions C80_unique.
Print Assumptions C80_exclusive.
Print Assumptions C80_early.
Print Assumptions C80_port_refuted.
Print Assumptions C80_port.
Print Assumptions C81_file.
Print Assumptions C81_defined.
Print Assumptions C81_safe.
Print Assumptions C81_long_line_refuted.
Print Assumptions C82_user.
Print Assumptions C82_login.
Print Assumptions C82_no_account.
