(** Proofs about the start of the daemon. *)
From Coq Require Import String.
From Verif Require Import Base BaseProof Chars Mem StrModel StrSpec StrProof MsgModel MsgSpec MsgProof BootModel BootSpec.
Local Open Scope nat_scope.

Lemma str_at_ok b pre s p : holds b (pre ++ s) -> p = length pre -> str_at b p = Ok s.
Proof.
  intros (C & junk & ->) ->. apply Forall_app in C. destruct C as [_ C]. unfold str_at. rewrite <- app_assoc.
  rewrite (find_nul_ok s _ pre junk C) by (rewrite !app_length; cbn [length]; lia). cbn [bind].
  replace (length pre + length s - length pre) with (length s) by lia. rewrite slice_ok by (rewrite !app_length; cbn [length]; lia).
  rewrite skipn_app, skipn_all, Nat.sub_diag. cbn [skipn app]. rewrite firstn_app, firstn_all, Nat.sub_diag. cbn [firstn]. rewrite app_nil_r. reflexivity.
Qed.
Lemma upto_app a b : ~ In LF a -> upto_lf (a ++ LF :: b) = a.
Proof.
  induction a as [|c a IH]; intros N; cbn [app upto_lf]; [rewrite Z.eqb_refl; reflexivity|].
  destruct (Z.eqb_spec c LF) as [->|]; [exfalso; apply N; left; auto|]. rewrite IH; [auto|intros I; apply N; right; auto].
Qed.
Lemma words_line m : msg_ok m -> line_ok (words m).
Proof.
  intros (_ & _ & _ & (C & N) & E). unfold words. destruct (m_err m) as [e|].
  - destruct (E e eq_refl) as [C2 N2]. split.
    + apply Forall_app. split; auto. apply Forall_app. split; auto. repeat (apply Forall_cons; [cbv; split; discriminate || reflexivity|]). apply Forall_nil.
    + intros I. apply in_app_or in I. destruct I as [I|I]; [auto|]. apply in_app_or in I. destruct I as [[I|[I|[]]]|I]; try discriminate. auto.
  - rewrite app_nil_r. split; auto.
Qed.

Lemma skip_log stamp m : stamp_ok stamp -> msg_ok m -> log_text MAX_LINE stamp (Some (zs "ERROR")) false (m_text m) (m_err m) = stamp ++ err_line m.
Proof.
  intros [C L] M. unfold log_text, err_line, words.
  assert (E : (tag (zs "ERROR") ++ m_text m ++ match m_err m with Some e => COLON :: SPACE :: e | None => [] end) =
              zs "ERROR:     " ++ m_text m ++ match m_err m with Some e => zs ": " ++ e | None => [] end) by (destruct (m_err m); reflexivity).
  cbv zeta. rewrite E. clear E. set (w := zs "ERROR:     " ++ _). rewrite firstn_app, L.
  replace (MAX_LINE - 2 - 20) with (Z.to_nat 1002) by (vm_compute; reflexivity).
  rewrite firstn_all2 by (rewrite L; apply Nat.leb_le; vm_compute; reflexivity). rewrite <- app_assoc. reflexivity.
Qed.

Definition body (m : msg) : list Z := firstn (Z.to_nat 991) (words m).

Lemma err_split m : err_line m = zs "ERROR:     " ++ body m ++ [LF].
Proof.
  unfold err_line, body. rewrite firstn_app. assert (length (zs "ERROR:     ") = 11) as -> by reflexivity.
  rewrite firstn_all2 by (apply Nat.leb_le; vm_compute; reflexivity). replace (Z.to_nat 1002 - 11) with (Z.to_nat 991) by (vm_compute; reflexivity). rewrite <- app_assoc. reflexivity.
Qed.
Lemma body_ok m : msg_ok m -> line_ok (body m) /\ length (body m) <= Z.to_nat 991 /\ body m <> [].
Proof.
  intros M. destruct (words_line m M) as [C N]. unfold body. split; [split|split].
  - apply firstn_chars. auto.
  - intros I. apply N. rewrite <- (firstn_skipn (Z.to_nat 991)). apply in_or_app. auto.
  - rewrite firstn_length. lia.
  - destruct M as (_ & _ & NE & _). unfold words. destruct (m_text m) as [|c t]; [congruence|].
    change (Z.to_nat 991) with (S (Z.to_nat 990)). discriminate.
Qed.

Section Text.
Variables (buf msgbuf stamp : list Z).
Hypotheses (LB : length buf = MAX_LINE) (LM : length msgbuf = MAX_LINE) (SO : stamp_ok stamp).

Lemma big : 31 + 991 < MAX_LINE.
Proof. apply Nat.ltb_lt. vm_compute. reflexivity. Qed.

Lemma log_err_ok m : msg_ok m -> log_err buf msgbuf stamp m = Ok (err_line m, body m).
Proof.
  intros M. destruct (body_ok m M) as ((BC & BN) & BL & _). pose proof big as BG. pose proof SO as [SC SL].
  pose proof M as (M1 & M2 & M3 & (M4 & M5) & M6).
  unfold log_err.
  destruct (log_aux_ok MAX_LINE buf stamp (Some (zs "ERROR")) (m_fmt m) (m_text m) (m_err m)) as (b & s & -> & L1 & H & ES); auto.
  { lia. } { intros e E. apply M6. auto. } { intros x E. injection E as <-. repeat (apply Forall_cons; [cbv; split; discriminate || reflexivity|]). apply Forall_nil. }
  cbn [bind]. apply Z.eqb_neq in M2. rewrite M2, (skip_log stamp m SO M) in H.
  rewrite (str_at_ok b stamp (err_line m) (length stamp) H eq_refl). cbn [bind].
  rewrite err_split in H. rewrite app_assoc in H.
  destruct (copy_msg_ok msgbuf b s (stamp ++ zs "ERROR:     ") (body m ++ [LF]) H) as (mb & -> & LMB & HM).
  { rewrite ES, app_length, app_length, SL. assert (length (tag (zs "ERROR")) = 11) as -> by reflexivity. assert (length (zs "ERROR:     ") = 11) as -> by reflexivity. lia. }
  { intros E. rewrite E in LM. cbn [length] in LM. lia. }
  cbn [bind]. rewrite firstn_all2 in HM by (rewrite LM, app_length; cbn [length]; lia).
  rewrite (str_at_ok mb [] (body m ++ [LF]) 0 HM eq_refl). cbn [bind]. rewrite upto_app by auto. reflexivity.
Qed.

Lemma hear_ok m rest : msg_ok m -> hear buf stamp (body m ++ [NUL]) rest = Ok (err_line m).
Proof using LB SO.
  clear LM msgbuf. intros M. destruct (body_ok m M) as ((BC & BN) & BL & BE). pose proof big as BG. pose proof SO as [SC SL].
  unfold hear. destruct (body m) as [|c t] eqn:EB; [congruence|]. cbn [app]. rewrite <- EB in *.
  destruct (Z.eqb_spec c NUL) as [->|NZ]. { exfalso. rewrite EB in BC. inversion BC as [|? ? X]. cbv in X. destruct X as [X _]. congruence. }
  change (c :: (t ++ [NUL]) ++ rest) with ((c :: t ++ [NUL]) ++ rest) at 1.
  assert (E : (c :: t ++ [NUL]) ++ rest = body m ++ NUL :: rest) by (rewrite EB; cbn [app]; rewrite <- app_assoc; reflexivity).
  rewrite E. clear E. rewrite (str_at_ok (body m ++ NUL :: rest) [] (body m) 0); [|split; [auto|eexists; reflexivity]|reflexivity]. cbn [bind].
  destruct (log_aux_ok MAX_LINE buf stamp (Some (zs "ERROR")) (zs "%s") (body m) None) as (b & s & -> & L1 & H & _); auto.
  { lia. } { discriminate. } { discriminate. } { intros x E. injection E as <-. repeat (apply Forall_cons; [cbv; split; discriminate || reflexivity|]). apply Forall_nil. }
  cbn [bind]. change (last (zs "%s") 0 =? LF)%Z with false in H.
  pose (m' := mkMsg (zs "%s") (body m) None).
  assert (M' : msg_ok m'). { split; [discriminate|]. split; [discriminate|]. split; [exact BE|]. split; [split; auto|discriminate]. }
  change (body m) with (m_text m') in H at 1. change (@None (list Z)) with (m_err m') in H. rewrite (skip_log stamp m' SO M') in H.
  rewrite (str_at_ok b stamp (err_line m') (length stamp) H eq_refl). f_equal. rewrite !err_split. do 2 f_equal.
  unfold body at 1, words. cbn [m' m_text m_err]. rewrite app_nil_r. apply firstn_all2. auto.
Qed.
End Text.

(** ** The processes *)
Section Boot.
Variables (m_pipe m_fork m_pclose m_read1 m_read2 m_cclose m_setsid m_fork2 m_close : msg) (w1 w2 w3 : list msg).
Variables (buf msgbuf stamp pbuf pstamp rest : list Z).
Hypotheses (MP : msg_ok m_pipe) (MF : msg_ok m_fork) (MC : msg_ok m_cclose) (MS : msg_ok m_setsid) (MF2 : msg_ok m_fork2) (W1 : Forall msg_ok w1) (W2 : Forall msg_ok w2).
Hypotheses (LB : length buf = MAX_LINE) (LM : length msgbuf = MAX_LINE) (SO : stamp_ok stamp) (LPB : length pbuf = MAX_LINE) (PSO : stamp_ok pstamp).
Let stp := step m_pipe m_fork m_pclose m_read1 m_read2 m_cclose m_setsid m_fork2 m_close w1 w2 w3 buf msgbuf stamp pbuf pstamp rest.

Lemma shown_ok m : msg_ok m -> shown buf msgbuf stamp m = err_line m.
Proof. intros M. unfold shown. rewrite log_err_ok; auto. Qed.
Lemma told_ok m : msg_ok m -> told buf msgbuf stamp m = body m.
Proof. intros M. unfold told. rewrite log_err_ok; auto. Qed.

Definition early (q : ppc) : Prop := q = PClose \/ q = PRead.
Definition reaped : proc := mkProc (Exit 0) true true false.

(** On its way: the child, and the daemon. *)
Inductive ready : bool -> proc -> Prop :=
| RC1 : ready true (mkProc (Run (child_acts m_cclose m_setsid m_fork2)) true true true)
| RC2 : ready true (mkProc (Run [Call m_setsid; Fork m_fork2]) true true true)
| RC3 : ready true (mkProc (Run [Fork m_fork2]) true true true)
| RD1 w : Forall msg_ok w -> ready false (mkProc (Run (map Call w ++ Quiet :: map Call w2 ++ Clear :: Close m_close :: map Call w3)) true true true)
| RD2 w : Forall msg_ok w -> ready false (mkProc (Run (map Call w ++ Clear :: Close m_close :: map Call w3)) false true true)
| RD3 : ready false (mkProc (Run (Close m_close :: map Call w3)) false false true).
Inductive up : proc -> Prop :=
| Up1 k : up (mkProc (Run (map Call (skipn k w3))) false false false)
| Up2 : up (mkProc Serving false false false).

Inductive life : bool -> proc -> ppc -> list Z -> list (list Z) -> list msg -> Prop :=
| L_ready c p q : ready c p -> early q -> life c p q [] [] []
| L_up p q : up p -> early q \/ q = PDone 0 -> life false p q [] [] []
| L_say c m t q : msg_ok m -> early q -> life c (mkProc (Say m) t true true) q [] [] [m]
| L_tell c m t q : msg_ok m -> early q -> life c (mkProc (Tell m) t true true) q [] (if t then [err_line m] else []) [m]
| L_send c m q pi : msg_ok m -> early q /\ pi = [3%Z] \/ q = PMsg /\ pi = [] -> life c (mkProc (Send m) false true true) q pi [] [m]
| L_exit1 c m q pi : msg_ok m -> early q /\ pi = [3%Z] \/ q = PMsg /\ pi = [] \/ q = PDone 1 /\ pi = [] -> life c (mkProc (Exit 1) true true false) q pi [err_line m] [m]
| L_exit2 c m q pi tt : msg_ok m -> early q /\ pi = 3%Z :: body m ++ [NUL] /\ tt = [] \/ q = PMsg /\ pi = body m ++ [NUL] /\ tt = [] \/ q = PDone 1 /\ pi = [] /\ tt = [err_line m] ->
    life c (mkProc (Exit 1) false true false) q pi tt [m].

Inductive inv : st -> list msg -> Prop :=
| I_start q : q = PPipe \/ q = PFork -> inv (mkSt q None None [] []) []
| I_fail m : inv (mkSt (PDone 1) None None [] [err_line m]) [m]
| I_child p q pi tt l : life true p q pi tt l -> inv (mkSt q (Some p) None pi tt) l
| I_daemon p q pi tt l : life false p q pi tt l -> inv (mkSt q (Some reaped) (Some p) pi tt) l.

Lemma inv_boot : inv boot [].
Proof. apply I_start. auto. Qed.

(** What a step of the parent does to the others: nothing. *)
Lemma parent_life c p q pi tt l cc gg ok s' : life c p q pi tt l -> ok = true ->
  (cc = Some p /\ gg = None \/ cc = Some reaped /\ gg = Some p) ->
  parent m_pipe m_fork m_pclose m_read1 m_read2 m_cclose m_setsid m_fork2 buf msgbuf stamp pbuf pstamp rest (mkSt q cc gg pi tt) ok = Some s' ->
  exists q' pi' tt', s' = mkSt q' cc gg pi' tt' /\ life c p q' pi' tt' l.
Proof.
  intros L -> W. unfold parent. cbn [pp ch gc pipe tty].
  assert (H : forall q, q <> PClose -> held (mkSt q cc gg pi tt) = p_end p).
  { intros q0 N. unfold held. cbn [pp ch gc]. destruct W as [[-> ->]|[-> ->]]; cbn [p_end reaped].
    - destruct q0; cbn [orb]; rewrite ?orb_false_r; try congruence; reflexivity.
    - destruct q0; cbn [orb]; try congruence; reflexivity. }
  assert (CL : early q -> forall q0, q = q0 -> True) by auto. clear CL.
  destruct L as [c p q R E|p q U E|c m t q M E|c m t q M E|c m q pi M E|c m q pi M E|c m q pi tt M E].
  - assert (HE : p_end p = true) by (destruct R; reflexivity).
    destruct E as [-> | ->]; intros X.
    + injection X as <-. do 3 eexists. split; [reflexivity|]. apply L_ready; auto. right. auto.
    + rewrite H, HE in X by discriminate. discriminate.
  - assert (HE : p_end p = false) by (destruct U; reflexivity).
    destruct E as [[-> | ->]| ->]; intros X; [| |discriminate].
    + injection X as <-. do 3 eexists. split; [reflexivity|]. apply L_up; auto. left. right. auto.
    + rewrite H, HE in X by discriminate. injection X as <-. do 3 eexists. split; [reflexivity|]. apply L_up; auto.
  - destruct E as [-> | ->]; intros X.
    + injection X as <-. do 3 eexists. split; [reflexivity|]. apply L_say; auto. right. auto.
    + rewrite H in X by discriminate. discriminate.
  - destruct E as [-> | ->]; intros X.
    + injection X as <-. do 3 eexists. split; [reflexivity|]. apply L_tell; auto. right. auto.
    + rewrite H in X by discriminate. discriminate.
  - destruct E as [[[-> | ->] ->]|[-> ->]]; intros X.
    + injection X as <-. do 3 eexists. split; [reflexivity|]. apply L_send; auto. left. split; [right|]; auto.
    + injection X as <-. do 3 eexists. split; [reflexivity|]. apply L_send; auto.
    + rewrite H in X by discriminate. discriminate.
  - destruct E as [[[-> | ->] ->]|[[-> ->]|[-> ->]]]; intros X; [| | |discriminate].
    + injection X as <-. do 3 eexists. split; [reflexivity|]. apply L_exit1; auto. left. split; [right|]; auto.
    + injection X as <-. do 3 eexists. split; [reflexivity|]. apply L_exit1; auto.
    + rewrite H in X by discriminate. injection X as <-. do 3 eexists. split; [reflexivity|]. apply L_exit1; auto.
  - destruct E as [[[-> | ->] [-> ->]]|[[-> [-> ->]]|[-> [-> ->]]]]; intros X; [| | |discriminate].
    + injection X as <-. do 3 eexists. split; [reflexivity|]. apply L_exit2; auto. left. split; [right|]; auto.
    + injection X as <-. do 3 eexists. split; [reflexivity|]. apply L_exit2; auto.
    + destruct (body_ok m M) as (_ & BL & BE). pose proof big as BG.
      rewrite firstn_all2 in X by (rewrite app_length; cbn [length]; lia). rewrite skipn_all2 in X by (rewrite app_length; cbn [length]; lia).
      rewrite hear_ok in X by auto. assert (NE : exists a b, err_line m = a :: b) by (rewrite err_split; do 2 eexists; reflexivity).
      destruct NE as (a & b & NE). rewrite NE in X. destruct (body m ++ [NUL]) eqn:EB; [destruct (body m); discriminate|].
      injection X as <-. rewrite <- NE. do 3 eexists. split; [reflexivity|]. apply L_exit2; auto.
Qed.

(** A step of the child or the daemon that goes well, or that fails at a call. *)
Lemma proc_life c p q pi tt l ok p' o t g : life c p q pi tt l ->
  (ok = false -> calls (Some p) <> None) ->
  step_proc m_close w1 w2 w3 buf msgbuf stamp p ok = Some (p', o, t, g) ->
  let l' := l ++ (if ok then [] else match calls (Some p) with Some m => [m] | None => [] end) in
  match g with
  | None => life c p' q (pi ++ o) (tt ++ t) l'
  | Some d => c = true /\ p' = reaped /\ life false d q (pi ++ o) (tt ++ t) l'
  end.
Proof.
  intros L CA X. destruct L as [c p q R E|p q U E|c m t0 q M E|c m t0 q M E|c m q pi M E|c m q pi M E|c m q pi tt M E].
  - destruct R as [| | |w FW|w FW|]; unfold step_proc in X; cbn [p_pc p_tty p_rep p_end] in X.
    + cbn [child_acts] in X. injection X as <- <- <- <-. destruct ok; cbn [app calls p_rep p_pc child_acts].
      * apply L_ready; [apply RC2|auto].
      * apply L_say; auto.
    + injection X as <- <- <- <-. destruct ok; cbn [app calls p_rep p_pc].
      * apply L_ready; [apply RC3|auto].
      * apply L_say; auto.
    + destruct ok; injection X as <- <- <- <-; cbn [app calls p_rep p_pc].
      * split; auto. split; [reflexivity|]. apply L_ready; [apply RD1; auto|auto].
      * apply L_say; auto.
    + destruct FW as [|m w M FW]; cbn [map app] in X.
      * destruct ok; [|exfalso; apply CA; reflexivity]. injection X as <- <- <- <-. cbn [app]. apply L_ready; [apply RD2; auto|auto].
      * injection X as <- <- <- <-. destruct ok; cbn [app calls p_rep p_pc map].
        -- apply L_ready; [apply RD1; auto|auto].
        -- apply L_say; auto.
    + destruct FW as [|m w M FW]; cbn [map app] in X.
      * destruct ok; [|exfalso; apply CA; reflexivity]. injection X as <- <- <- <-. cbn [app]. apply L_ready; [apply RD3|auto].
      * injection X as <- <- <- <-. destruct ok; cbn [app calls p_rep p_pc map].
        -- apply L_ready; [apply RD2; auto|auto].
        -- apply L_say; auto.
    + destruct ok; [|exfalso; apply CA; reflexivity]. injection X as <- <- <- <-. cbn [app]. apply L_up; [|auto]. exact (Up1 0).
  - destruct U as [k|]; unfold step_proc in X; cbn [p_pc p_tty p_rep p_end] in X; [|discriminate].
    destruct ok; [|exfalso; apply CA; reflexivity].
    destruct (skipn k w3) as [|m w] eqn:EK; cbn [map] in X.
    + injection X as <- <- <- <-. cbn [app]. apply L_up; [apply Up2|auto].
    + injection X as <- <- <- <-. cbn [app]. apply L_up; [|auto].
      assert (EW : w = skipn (S k) w3). { clear - EK. revert w3 EK. induction k as [|k IH]; intros [|a w3] EK; cbn [skipn] in *; try congruence. apply IH. auto. }
      rewrite EW. apply Up1.
  - destruct ok; [|exfalso; apply CA; reflexivity]. injection X as <- <- <- <-. rewrite app_nil_r. cbn [app]. rewrite shown_ok by auto. apply L_tell; auto.
  - destruct ok; [|exfalso; apply CA; reflexivity]. unfold step_proc in X. cbn [p_pc p_tty p_rep p_end] in X. rewrite told_ok in X by auto. injection X as <- <- <- <-.
    rewrite !app_nil_r. cbn [app]. destruct (body_ok m M) as (_ & _ & BE). destruct (body m); [congruence|]. destruct t0.
    + apply L_exit1; auto.
    + apply L_send; auto.
  - destruct ok; [|exfalso; apply CA; reflexivity]. unfold step_proc in X. cbn [p_pc p_tty p_rep p_end] in X. rewrite told_ok in X by auto. injection X as <- <- <- <-.
    rewrite !app_nil_r. apply L_exit2; auto. destruct E as [[E ->]|[-> ->]]; [left|right; left]; auto.
  - discriminate.
  - discriminate.
Qed.

Lemma inv_step s l e s' : inv s l -> calm m_pipe m_fork s e -> stp s e = Some s' -> inv s' (l ++ match fault m_pipe m_fork s e with Some m => [m] | None => [] end).
Proof.
  intros I CA X. unfold stp in X. destruct e as [w ok|w]; [|destruct CA].
  destruct I as [q Q|m|p q pi tt l L|p q pi tt l L].
  - destruct w; [|discriminate|discriminate]. destruct Q as [-> | ->]; cbn [step parent pp ch gc pipe tty] in X; destruct ok; cbn [fault pp]; injection X as <-; cbn [app].
    + apply I_start. auto.
    + rewrite shown_ok by auto. apply I_fail.
    + apply I_child. apply L_ready; [apply RC1|left; auto].
    + rewrite shown_ok by auto. apply I_fail.
  - destruct w; discriminate.
  - destruct w; [| |discriminate].
    + destruct ok.
      * cbn [step] in X. destruct (parent_life _ _ _ _ _ _ (Some p) None true s' L eq_refl ltac:(auto) X) as (q' & pi' & tt' & -> & L'). cbn [fault]. rewrite app_nil_r. apply I_child. auto.
      * exfalso. cbn [calm fault pp] in CA. destruct L as [? ? ? ? [-> | ->]|? ? ? [[-> | ->]| ->]|? ? ? ? ? [-> | ->]|? ? ? ? ? [-> | ->]|? ? ? ? ? [[[-> | ->] _]|[-> _]]|? ? ? ? ? [[[-> | ->] _]|[[-> _]|[-> _]]]|? ? ? ? ? ? [[[-> | ->] _]|[[-> _]|[-> _]]]]; apply CA; reflexivity.
    + cbn [step ch gc pp pipe tty] in X. destruct (step_proc _ _ _ _ _ _ _ p ok) as [[[[p' o] t] g]|] eqn:EP; [|discriminate]. injection X as <-.
      pose proof (proc_life true p q pi tt l ok p' o t g L) as P. cbn [calm fault ch] in CA.
      specialize (P ltac:(intros ->; exact CA) EP). cbv zeta in P.
      assert (EF : (if ok then [] else match calls (Some p) with Some m => [m] | None => [] end) = match fault m_pipe m_fork (mkSt q (Some p) None pi tt) (Step Child ok) with Some m => [m] | None => [] end) by (destruct ok; reflexivity).
      rewrite EF in P. destruct g as [d|]; [destruct P as (_ & -> & P); apply I_daemon; auto|apply I_child; auto].
  - destruct w.
    + destruct ok.
      * cbn [step] in X. destruct (parent_life _ _ _ _ _ _ (Some reaped) (Some p) true s' L eq_refl ltac:(auto) X) as (q' & pi' & tt' & -> & L'). cbn [fault]. rewrite app_nil_r. apply I_daemon. auto.
      * exfalso. cbn [calm fault pp] in CA. destruct L as [? ? ? ? [-> | ->]|? ? ? [[-> | ->]| ->]|? ? ? ? ? [-> | ->]|? ? ? ? ? [-> | ->]|? ? ? ? ? [[[-> | ->] _]|[-> _]]|? ? ? ? ? [[[-> | ->] _]|[[-> _]|[-> _]]]|? ? ? ? ? ? [[[-> | ->] _]|[[-> _]|[-> _]]]]; apply CA; reflexivity.
    + discriminate.
    + cbn [step ch gc pp pipe tty] in X. destruct (step_proc _ _ _ _ _ _ _ p ok) as [[[[p' o] t] g]|] eqn:EP; [|discriminate]. injection X as <-.
      pose proof (proc_life false p q pi tt l ok p' o t g L) as P. cbn [calm fault gc] in CA.
      specialize (P ltac:(intros ->; exact CA) EP). cbv zeta in P.
      assert (EF : (if ok then [] else match calls (Some p) with Some m => [m] | None => [] end) = match fault m_pipe m_fork (mkSt q (Some reaped) (Some p) pi tt) (Step Daemon ok) with Some m => [m] | None => [] end) by (destruct ok; reflexivity).
      rewrite EF in P. destruct g as [d|]; [destruct P as (D & _); discriminate|apply I_daemon; auto].
Qed.
Lemma inv_goes n l s : goes m_pipe m_fork stp boot n l s -> inv s l.
Proof. induction 1 as [|n l s e s' _ IH C E]; [apply inv_boot|]. eapply inv_step; eauto. Qed.
End Boot.
