(** Proofs about the lines of serial consoles. *)
From Coq Require Import String Lia.
From Verif Require Import LexProof.
From Verif Require Import Base BaseProof Chars OptModel InstModel TermModel LineModel LineSpec.
Local Open Scope Z_scope.

(** ** Settings *)
Ltac bits :=
  cbn [Z.eqb Pos.eqb];
  repeat first [rewrite Z.lor_spec | rewrite Z.land_spec | rewrite Z.lnot_spec by lia];
  repeat match goal with
         | |- context [Z.testbit ?k ?n] =>
             let v := eval vm_compute in (Z.testbit k n) in
             match v with true => change (Z.testbit k n) with true | false => change (Z.testbit k n) with false end
         end.
Ltac blast := repeat match goal with |- context [Z.testbit ?k ?n] => generalize (Z.testbit k n); intros [|] end; try reflexivity.

Lemma four n : 5 <= n <= 8 -> n = 5 \/ n = 6 \/ n = 7 \/ n = 8.  Proof. lia. Qed.
Lemma three n : 0 <= n <= 2 -> n = 0 \/ n = 1 \/ n = 2.  Proof. lia. Qed.
Lemma two n : 1 <= n <= 2 -> n = 1 \/ n = 2.  Proof. lia. Qed.

Lemma set_serial_opts_ok p o : opts_ok o -> exists p', set_serial_opts p o = Ok p' /\
  ispeed p' = s_bps o /\ ospeed p' = s_bps o /\ data_bits p' = s_databits o /\ stop_bits p' = s_stopbits o /\
  (plain p -> parity p' = par_of (s_parity o)) /\ cbit p' 30 = cbit p 30 /\ iflag (tio p') = iflag (tio p) /\ oflag (tio p') = oflag (tio p) /\ lflag (tio p') = lflag (tio p).
Proof.
  destruct o as [b d q s]. intros (B & D & P & S). cbn [s_bps s_databits s_parity s_stopbits] in *.
  unfold set_serial_opts. cbn [s_bps s_databits s_parity s_stopbits].
  replace (0 <? b) with true by (symmetry; apply Z.ltb_lt; exact B).
  destruct (four d D) as [-> | [-> | [-> | ->]]]; destruct (three q P) as [-> | [-> | ->]]; destruct (two s S) as [-> | ->];
    (eexists; split; [reflexivity|]); unfold data_bits, stop_bits, parity, plain, par_of, cbit; cbn [tio ispeed ospeed cflag iflag oflag lflag];
    (split; [reflexivity|]); (split; [reflexivity|]); (split; [bits; blast|]); (split; [bits; blast|]);
    (split; [intros PL; bits; rewrite ?PL; blast|]); (split; [bits; blast|]); repeat split; reflexivity.
Qed.

Lemma raw_in xon xoff p b : bare p -> tty_in xon xoff (raw_port p) b = [b].
Proof.
  intros (I7 & I6 & I3). unfold tty_in, ibit, raw_port in *. cbn [tio iflag lflag get_tty_raw] in *.
  assert (T : forall n, Z.testbit (Z.land (iflag (tio p)) (Z.lnot (ors [BRKINT; ICRNL; INPCK; ISTRIP; IXON]))) n
                        = Z.testbit (iflag (tio p)) n && Z.testbit (Z.lnot (ors [BRKINT; ICRNL; INPCK; ISTRIP; IXON])) n) by (intro; apply Z.land_spec).
  assert (L : Z.testbit (Z.land (lflag (tio p)) (Z.lnot (ors [ECHO; ECHOCTL; ICANON; IEXTEN; ISIG]))) 15 = false)
    by (rewrite Z.land_spec; change (Z.testbit (Z.lnot (ors [ECHO; ECHOCTL; ICANON; IEXTEN; ISIG])) 15) with false; apply Bool.andb_false_r).
  rewrite L, !T. change (Z.testbit (Z.lnot (ors [BRKINT; ICRNL; INPCK; ISTRIP; IXON])) 10) with false.
  change (Z.testbit (Z.lnot (ors [BRKINT; ICRNL; INPCK; ISTRIP; IXON])) 5) with false.
  change (Z.testbit (Z.lnot (ors [BRKINT; ICRNL; INPCK; ISTRIP; IXON])) 8) with false.
  rewrite I7, I6, I3, !Bool.andb_false_r. cbn [andb].
  destruct (b =? CR) eqn:E; [apply Z.eqb_eq in E; subst; reflexivity|]. destruct (b =? LF) eqn:E2; [apply Z.eqb_eq in E2; subst; reflexivity|]. reflexivity.
Qed.
Lemma tty_in_ext xon xoff p q b : iflag (tio p) = iflag (tio q) -> lflag (tio p) = lflag (tio q) -> tty_in xon xoff p b = tty_in xon xoff q b.
Proof. intros I L. unfold tty_in, ibit. rewrite I, L. reflexivity. Qed.
Lemma raw_out p b : tty_out (raw_port p) b = Some b.
Proof.
  unfold tty_out, raw_port. cbn [tio oflag get_tty_raw]. rewrite Z.land_spec. change (Z.testbit (Z.lnot OPOST) 0) with false.
  rewrite Bool.andb_false_r. reflexivity.
Qed.
Lemma raw_plain p : cbit (raw_port p) 30 = cbit p 30.
Proof. unfold cbit, raw_port. cbn [tio cflag get_tty_raw]. bits. blast. Qed.
Lemma raw_bare p : bare p -> bare (raw_port p).
Proof. unfold bare, ibit, raw_port. cbn [tio iflag get_tty_raw]. intros (A & B & C). rewrite !Z.land_spec, A, B, C. auto. Qed.

(** ** Lists and locks *)
Lemma set_nth_same l c x o : nth_error l c = Some o -> nth_error (set_nth l c x) c = Some x.
Proof. revert c. induction l as [|y l IH]; intros [|c] H; cbn in *; try discriminate; auto. Qed.
Lemma set_nth_other l c x e : e <> c -> nth_error (set_nth l c x) e = nth_error l e.
Proof. revert c e. induction l as [|y l IH]; intros [|c] [|e] H; cbn; auto; try congruence. Qed.
Lemma owner_eqb_refl o : owner_eqb o o = true.
Proof. destruct o; cbn; rewrite ?Z.eqb_refl, ?Nat.eqb_refl; reflexivity. Qed.
Lemma unlocked_other o d l ls : l_file l <> d -> In l ls -> In l (unlocked o d ls).
Proof. intros F I. apply filter_In. split; auto. apply Nat.eqb_neq in F. rewrite F. reflexivity. Qed.
Lemma unlocked_owner o d l ls : owner_eqb (l_own l) o = false -> In l ls -> In l (unlocked o d ls).
Proof. intros F I. apply filter_In. split; auto. rewrite F, Bool.andb_false_r. reflexivity. Qed.
Lemma get_lock_in o d wr ls ls' : get_lock o d wr ls = Some ls' -> In (mkLock o d wr) ls'.
Proof. unfold get_lock. destruct conflicts; [|discriminate]. intros [= <-]. left. reflexivity. Qed.
Lemma get_lock_other o d wr ls ls' l : get_lock o d wr ls = Some ls' -> l_file l <> d \/ owner_eqb (l_own l) o = false -> In l ls -> In l ls'.
Proof.
  unfold get_lock. destruct conflicts; [|discriminate]. intros [= <-] [F | F] I; right; [apply unlocked_other | apply unlocked_owner]; auto.
Qed.
Lemma get_lock_blocked o d wr ls p : owner_eqb (Proc p) o = false -> In (mkLock (Proc p) d true) ls -> get_lock o d wr ls = None.
Proof.
  intros O I. unfold get_lock. destruct (conflicts o d wr ls) as [|x r] eqn:E; [|reflexivity].
  assert (F : In (mkLock (Proc p) d true) (conflicts o d wr ls)).
  { apply filter_In. split; auto. cbn [l_file l_own l_write]. rewrite O, Nat.eqb_refl, Bool.orb_true_r. reflexivity. }
  rewrite E in F. destruct F.
Qed.

Section Line.
Variables (drv : nat -> port -> port) (me : Z).

(** ** One console *)
(** what opening the console [c] does *)
Definition does (c : nat) (o : obj) (v : option nat) (w w' : world) : Prop :=
  life_ w' = Alive /\
  (forall x, x <> c -> nth_error (objs w') x = nth_error (objs w) x) /\
  (forall f, f <> o_dev o -> ports w' f = ports w f) /\
  (forall l, l_file l <> o_dev o -> In l (locks w) -> In l (locks w')) /\
  exists o', nth_error (objs w') c = Some o' /\ o_dev o' = o_dev o /\ o_opts o' = o_opts o /\
    ((o' = o /\ ports w' (o_dev o) = ports w (o_dev o)) \/
     (o_open o' = true /\ In (mkLock (Proc me) (o_dev o) true) (locks w') /\
      (v <> None -> o_lost o' = true) /\ (v = None -> o_lost o' = false /\ o_saved o' = ports w (o_dev o)) /\
      ((v <> None /\ ports w' (o_dev o) = ports w (o_dev o)) \/
       exists p, set_serial_opts (raw_port (ports w (o_dev o))) (o_opts o) = Ok p /\ ports w' (o_dev o) = drv (o_dev o) p))).

Definition bad (x : life) : Prop := x = Died \/ x = Hung.
Lemma open_dev_does c o can v w : life_ w = Alive -> nth_error (objs w) c = Some o -> opts_ok (o_opts o) ->
  exists w', open_dev drv me c o can v w = Ok w' /\ ((bad (life_ w') /\ objs w' = objs w) \/ does c o v w w').
Proof.
  intros A N K. unfold open_dev.
  assert (CL : forall ls, (forall l, l_file l <> o_dev o -> In l (locks w) -> In l ls) -> (bad (life_ (close_dev me (set_locks w ls) (o_dev o))) /\ objs (close_dev me (set_locks w ls) (o_dev o)) = objs w) \/ does c o v w (close_dev me (set_locks w ls) (o_dev o))).
  { intros ls LS. right. unfold does, close_dev, closed, set_locks. cbn [life_ objs ports locks].
    split; [assumption|]. split; [reflexivity|]. split; [reflexivity|]. split.
    - intros l F I. apply unlocked_other; auto.
    - exists o. split; [assumption|]. split; [reflexivity|]. split; [reflexivity|]. left. split; reflexivity. }
  assert (CL0 : (bad (life_ (close_dev me w (o_dev o))) /\ objs (close_dev me w (o_dev o)) = objs w) \/ does c o v w (close_dev me w (o_dev o))).
  { specialize (CL (locks w) (fun l _ I => I)). unfold close_dev, set_locks in *. cbn [locks] in CL. exact CL. }
  destruct can; cbn [negb].
  2: { eexists. split; [reflexivity|]. right. split; [assumption|]. split; [reflexivity|]. split; [reflexivity|]. split; [auto|].
       exists o. split; [assumption|]. split; [reflexivity|]. split; [reflexivity|]. left. split; reflexivity. }
  destruct (works v 0) eqn:W0; cbn [negb]; [|eexists; split; [reflexivity | exact CL0]].
  destruct (get_lock (Proc me) (o_dev o) true (locks w)) as [ls|] eqn:G; [|eexists; split; [reflexivity | exact CL0]].
  assert (LS : forall l, l_file l <> o_dev o -> In l (locks w) -> In l ls) by (intros l F I; apply (get_lock_other _ _ _ _ _ _ G); auto).
  destruct (works v 1) eqn:W1; cbn [negb]; [|eexists; split; [reflexivity | exact (CL ls LS)]].
  destruct (works v 2 && negb (works v 3)) eqn:W23; [eexists; split; [reflexivity|]; left; split; [first [left; reflexivity | right; reflexivity] | reflexivity]|].
  cbv zeta. destruct (works v 4 && negb (works v 5)) eqn:W45; [eexists; split; [reflexivity|]; left; split; [first [left; reflexivity | right; reflexivity] | reflexivity]|].
  assert (OP : forall w1 s, life_ w1 = Alive -> objs w1 = objs w -> locks w1 = ls -> (forall f, f <> o_dev o -> ports w1 f = ports w f) ->
     (v = None -> s = ports w (o_dev o)) ->
     ((v <> None /\ ports w1 (o_dev o) = ports w (o_dev o)) \/
       exists p, set_serial_opts (raw_port (ports w (o_dev o))) (o_opts o) = Ok p /\ ports w1 (o_dev o) = drv (o_dev o) p) ->
     does c o v w (set_obj w1 c (mkObj (o_dev o) (o_opts o) true (match v with Some _ => true | None => false end) s))).
  { intros w1 s A1 O1 L1 P1 S1 Q1. unfold does, set_obj. cbn [life_ objs ports locks]. rewrite O1, L1. split; [assumption|].
    split; [intros x X; apply set_nth_other; assumption|]. split; [assumption|]. split; [assumption|].
    eexists. split; [eapply set_nth_same; eassumption|]. split; [reflexivity|]. split; [reflexivity|]. right.
    split; [reflexivity|]. split; [eapply get_lock_in; eassumption|]. split; [destruct v; [reflexivity | intros X; contradiction X; reflexivity]|].
    split; [intros ->; split; [reflexivity | exact (S1 eq_refl)] | exact Q1]. }
  destruct (works v 4) eqn:W4.
  - destruct (set_serial_opts_ok (raw_port (ports (set_locks w ls) (o_dev o))) (o_opts o) K) as (p & E & _). rewrite E. cbn [bind].
    eexists. split; [reflexivity|].
    unfold set_tty_mode. cbn [set_locks stuck].
    destruct (works v 6) eqn:W6; cbn [negb].
    + destruct (stuck w (o_dev o)); [left; cbn; split; [first [left; reflexivity | right; reflexivity] | reflexivity]|].
      destruct (works v 7) eqn:W7; cbn [negb]; [|left; cbn; split; [first [left; reflexivity | right; reflexivity] | reflexivity]].
      cbn [set_ports life_ set_locks]. rewrite A. right. apply OP; cbn [set_ports set_locks life_ objs locks ports]; auto.
      * intros f F. apply Nat.eqb_neq in F. rewrite F. reflexivity.
      * intros ->. reflexivity.
      * right. exists p. split; [exact E|]. rewrite Nat.eqb_refl. reflexivity.
    + cbn [set_locks life_]. rewrite A. right. apply OP; cbn [set_locks life_ objs locks ports]; auto.
      * intros ->. reflexivity.
      * left. split; [intros ->; discriminate W6 | reflexivity].
  - cbn [bind]. eexists. split; [reflexivity|]. cbn [set_locks life_]. rewrite A. right. apply OP; cbn [set_locks life_ objs locks ports]; auto.
    * intros ->. reflexivity.
    * left. split; [intros ->; discriminate W4 | reflexivity].
Qed.

(** ** Destroying *)
Lemma set_tty_frame v k w d p : objs (set_tty_mode drv me v k w d p) = objs w /\ (forall f, f <> d -> ports (set_tty_mode drv me v k w d p) f = ports w f).
Proof.
  unfold set_tty_mode. destruct (works v k); cbn [negb]; [|auto]. destruct (stuck w d); [auto|].
  destruct (works v (S k)); cbn [negb]; [|auto]. cbn [set_ports objs ports]. split; [reflexivity|].
  intros f F. apply Nat.eqb_neq in F. rewrite F. reflexivity.
Qed.
Lemma destroy_dev_frame c o v w f : f <> o_dev o -> ports (destroy_dev drv me c o v w) f = ports w f.
Proof.
  intros F. unfold destroy_dev. destruct (o_open o); [|reflexivity]. cbv zeta.
  pose proof (set_tty_frame (if o_lost o then Some 0%nat else v) 0 w (o_dev o) (o_saved o)) as (_ & P).
  destruct (life_ (set_tty_mode drv me (if o_lost o then Some 0%nat else v) 0 w (o_dev o) (o_saved o))); auto.
  cbn. apply P. assumption.
Qed.
Lemma destroy_all_dead c l vs w : life_ (destroy_all drv me c l vs w) <> Alive.
Proof.
  revert c vs w. induction l as [|o l IH]; intros c vs w; cbn [destroy_all].
  - destruct (life_ w) eqn:E; try (rewrite E; discriminate). cbn. discriminate.
  - destruct (life_ w) eqn:E; try (rewrite E; discriminate). apply IH.
Qed.
Lemma destroy_all_other c l vs w d : (forall o, In o l -> o_dev o <> d) -> ports (destroy_all drv me c l vs w) d = ports w d.
Proof.
  revert c vs w. induction l as [|o l IH]; intros c vs w H; cbn [destroy_all].
  - destruct (life_ w); reflexivity.
  - destruct (life_ w); try reflexivity. rewrite IH by (intros; apply H; right; assumption).
    apply destroy_dev_frame. apply not_eq_sym. intros E. apply (H o (or_introl eq_refl)). congruence.
Qed.
Lemma destroy_all_ended c l vs w k o :
  life_ (destroy_all drv me c l vs w) = Ended -> nth_error l k = Some o -> nth k vs None = None ->
  (forall j o', nth_error l j = Some o' -> o_dev o' = o_dev o -> j = k) ->
  life_ w = Alive -> ports (destroy_all drv me c l vs w) (o_dev o) = (if o_open o && negb (o_lost o) then drv (o_dev o) (o_saved o) else ports w (o_dev o)).
Proof.
  revert c vs w k. induction l as [|x l IH]; intros c vs w k E N V D A; [destruct k; discriminate|].
  cbn [destroy_all] in *. rewrite A in *.
  destruct k as [|k].
  - cbn in N. injection N as ->. rewrite destroy_all_other.
    2: { intros y I X. apply In_nth_error in I as (j & J). specialize (D (S j) y J X). discriminate. }
    assert (V0 : hd None vs = None) by (destruct vs; exact V). rewrite V0 in *.
    assert (L : life_ (destroy_dev drv me c o None w) = Alive).
    { destruct (life_ (destroy_dev drv me c o None w)) eqn:F; auto.
      - exfalso. unfold destroy_dev in F. destruct (o_open o); [|congruence].
        unfold set_tty_mode in F. destruct (o_lost o); cbn in F.
        + rewrite A in F. cbn in F. congruence.
        + destruct (stuck w (o_dev o)); cbn in F; [discriminate|]. rewrite A in F. cbn in F. congruence.
      - exfalso. destruct l; cbn [destroy_all] in E; rewrite F in E; congruence.
      - exfalso. destruct l; cbn [destroy_all] in E; rewrite F in E; congruence. }
    unfold destroy_dev in *. destruct (o_open o); cbn [andb]; [|reflexivity].
    unfold set_tty_mode in *. destruct (o_lost o); cbn [negb] in *.
    + cbn. rewrite A. reflexivity.
    + cbn in L |- *. destruct (stuck w (o_dev o)); cbn in L |- *; [discriminate|]. rewrite A. cbn. rewrite Nat.eqb_refl. reflexivity.
  - cbn in N. assert (L : life_ (destroy_dev drv me c x (hd None vs) w) = Alive).
    { destruct (life_ (destroy_dev drv me c x (hd None vs) w)) eqn:F; auto.
      - exfalso. unfold destroy_dev in F. destruct (o_open x); [|congruence].
        unfold set_tty_mode in F. set (v0 := if o_lost x then Some 0%nat else hd None vs) in F. clearbody v0.
        destruct (works v0 0); cbn [negb] in F.
        + destruct (stuck w (o_dev x)); cbn in F; [discriminate|]. destruct (works v0 1); cbn in F; [|discriminate]. rewrite A in F. cbn in F. congruence.
        + rewrite A in F. cbn in F. congruence.
      - exfalso. destruct l; cbn [destroy_all] in E; rewrite F in E; congruence.
      - exfalso. destruct l; cbn [destroy_all] in E; rewrite F in E; congruence. }
    rewrite (IH (S c) (tl vs) _ k E N); auto.
    + rewrite destroy_dev_frame; [reflexivity|]. intros X. specialize (D 0%nat x eq_refl (eq_sym X)). discriminate.
    + destruct vs; [destruct k; reflexivity | exact V].
    + intros j o' J X. specialize (D (S j) o' J X). congruence.
Qed.

(** ** Histories *)
Definition all_ok (w : world) : Prop := forall x o, nth_error (objs w) x = Some o -> opts_ok (o_opts o).
Definition distinct (w : world) : Prop := forall x y o p, nth_error (objs w) x = Some o -> nth_error (objs w) y = Some p -> o_dev o = o_dev p -> x = y.
Definition closed_obj (o : obj) : obj := mkObj (o_dev o) (o_opts o) false false (o_saved o).

(** the objects keep their devices and options *)
Definition alike (w w' : world) : Prop :=
  forall x, match nth_error (objs w) x, nth_error (objs w') x with
            | Some o, Some p => o_dev p = o_dev o /\ o_opts p = o_opts o
            | None, None => True
            | _, _ => False
            end.
Lemma alike_ok w w' : alike w w' -> all_ok w -> all_ok w'.
Proof. intros L K x o N. specialize (L x). rewrite N in L. destruct (nth_error (objs w) x) as [p|] eqn:E; [|contradiction]. destruct L as (_ & ->). exact (K x p E). Qed.
Lemma alike_distinct w w' : alike w w' -> distinct w -> distinct w'.
Proof.
  intros L D x y o p X Y E. pose proof (L x) as LX. pose proof (L y) as LY. rewrite X in LX. rewrite Y in LY.
  destruct (nth_error (objs w) x) as [a|] eqn:XA; [|contradiction]. destruct (nth_error (objs w) y) as [b|] eqn:YB; [|contradiction].
  destruct LX as (DX & _), LY as (DY & _). apply (D x y a b XA YB). congruence.
Qed.
Lemma alike_refl w w' : objs w' = objs w -> alike w w'.
Proof. intros E x. rewrite E. destruct (nth_error (objs w) x); auto. Qed.
Lemma does_alike c o o1 v w w' : nth_error (objs w) c = Some o -> o_dev o1 = o_dev o -> o_opts o1 = o_opts o -> does c o1 v w w' -> alike w w'.
Proof.
  intros N DD OO (_ & O & _ & _ & o' & N' & DV & OP & _) x. destruct (Nat.eq_dec x c) as [-> | X].
  - rewrite N, N'. split; congruence.
  - rewrite (O x X). destruct (nth_error (objs w) x); auto.
Qed.
(** opening and reopening a console, as steps *)
Definition moved (c : nat) (v : option nat) (w w' : world) : Prop :=
  alike w w' /\ (w' = w \/ bad (life_ w') \/
    exists o o1, nth_error (objs w) c = Some o /\ o_open o1 = false /\ o_dev o1 = o_dev o /\ o_opts o1 = o_opts o /\ o_saved o1 = o_saved o /\ does c o1 v w w').
Lemma step_open c can v w : life_ w = Alive -> all_ok w -> exists w', step drv me w (Open c can v) = Ok w' /\ moved c v w w'.
Proof.
  intros A K. unfold step. rewrite A. destruct (nth_error (objs w) c) as [o|] eqn:N.
  2: { eexists; split; [reflexivity|]. split; [apply alike_refl; reflexivity | left; reflexivity]. }
  destruct (o_open o) eqn:OP; [eexists; split; [reflexivity|]; split; [apply alike_refl; reflexivity | left; reflexivity]|].
  destruct (open_dev_does c o can v w A N (K c o N)) as (w' & E & D). exists w'. split; [exact E|]. destruct D as [(L & OB) | D].
  - split; [apply alike_refl; exact OB | right; left; exact L].
  - split; [exact (does_alike c o o v w w' N eq_refl eq_refl D)|]. right. right. exists o, o.
    split; [exact N|]. split; [exact OP|]. split; [reflexivity|]. split; [reflexivity|]. split; [reflexivity | exact D].
Qed.
Lemma step_hangup c can v w : life_ w = Alive -> all_ok w -> exists w', step drv me w (Hangup c can v) = Ok w' /\ moved c v w w'.
Proof.
  intros A K. unfold step. rewrite A. destruct (nth_error (objs w) c) as [o|] eqn:N.
  2: { eexists; split; [reflexivity|]. split; [apply alike_refl; reflexivity | left; reflexivity]. }
  destruct (o_open o) eqn:OP; [|eexists; split; [reflexivity|]; split; [apply alike_refl; reflexivity | left; reflexivity]].
  change (mkObj (o_dev o) (o_opts o) false false (o_saved o)) with (closed_obj o). cbv zeta. cbn [closed_obj o_dev].
  set (w1 := set_obj (close_dev me (set_stuck w (o_dev o) false) (o_dev o)) c (closed_obj o)).
  assert (N1 : nth_error (objs w1) c = Some (closed_obj o)) by (apply (set_nth_same _ _ _ o); exact N).
  assert (O1 : forall x, x <> c -> nth_error (objs w1) x = nth_error (objs w) x) by (intros x X; apply set_nth_other; assumption).
  destruct (open_dev_does c (closed_obj o) can v w1 A N1 (K c o N)) as (w' & E & D). exists w'. split; [exact E|].
  destruct D as [(L & OB) | (L & O & P & LK & o' & N' & DV & OO & C)].
  - split; [|right; left; exact L]. intros x. rewrite OB. destruct (Nat.eq_dec x c) as [-> | X].
    + rewrite N, N1. split; reflexivity.
    + rewrite (O1 x X). destruct (nth_error (objs w) x); auto.
  - assert (DO : does c (closed_obj o) v w w').
    { split; [assumption|]. split; [intros x X; rewrite (O x X); apply O1; assumption|].
      split; [intros f F; rewrite (P f F); reflexivity|].
      split; [intros l F I; apply LK; [assumption|]; apply unlocked_other; assumption|].
      exists o'. split; [assumption|]. split; [assumption|]. split; [assumption|]. exact C. }
    split; [exact (does_alike c o (closed_obj o) v w w' N eq_refl eq_refl DO)|]. right. right. exists o, (closed_obj o).
    split; [exact N|]. split; [reflexivity|]. split; [reflexivity|]. split; [reflexivity|]. split; [reflexivity | exact DO].
Qed.
Lemma nth_lose d w x : nth_error (map (lose d) (objs w)) x = option_map (lose d) (nth_error (objs w) x).
Proof. revert x. induction (objs w) as [|o l IH]; intros [|x]; cbn; auto. Qed.
Lemma lose_dev d o : o_dev (lose d o) = o_dev o.
Proof. unfold lose. destruct (o_dev o =? d)%nat eqn:E; cbn [andb]; [|reflexivity]. apply Nat.eqb_eq in E. destruct (o_open o); [cbn; congruence | reflexivity]. Qed.
Lemma lose_opts d o : o_opts (lose d o) = o_opts o.
Proof. unfold lose. destruct ((o_dev o =? d)%nat && o_open o); reflexivity. Qed.

Section Inv.
Variables (c d : nat) (opts : seropt) (Q R : port -> Prop).
Hypothesis QR : forall p p', Q p -> set_serial_opts (raw_port p) opts = Ok p' -> Q (drv d p') /\ R (drv d p').

Definition holds_ (w : world) : Prop :=
  exists o, nth_error (objs w) c = Some o /\ o_dev o = d /\ o_opts o = opts /\ Q (ports w d) /\
    (o_open o = true -> In (mkLock (Proc me) d true) (locks w) /\ (o_lost o = false -> R (ports w d))).
Definition inv (w : world) : Prop := life_ w = Alive -> all_ok w /\ distinct w /\ holds_ w.

Lemma does_inv o o1 v w w' : holds_ w -> nth_error (objs w) c = Some o -> o_open o1 = false -> o_dev o1 = o_dev o -> o_opts o1 = o_opts o ->
  does c o1 v w w' -> holds_ w'.
Proof.
  intros (o0 & N0 & DV0 & OP0 & Q0 & _) N CL DE OE (L & O & P & LK & o' & N' & DV & OP & C). rewrite N in N0. injection N0 as <-.
  rewrite DE, OE in *. rewrite DV0, OP0 in *.
  exists o'. split; [assumption|]. split; [assumption|]. split; [assumption|].
  destruct C as [(-> & PE) | (OT & IL & LO & SV & PC)].
  - rewrite PE. split; [assumption|]. rewrite CL. discriminate.
  - destruct PC as [(V & PE) | (p & SE & PE)].
    + rewrite PE. split; [assumption|]. intros _. split; [assumption|]. rewrite (LO V). discriminate.
    + destruct (QR _ _ Q0 SE) as (Q1 & R1). rewrite PE. split; [assumption|]. intros _. split; [assumption|]. intros _. assumption.
Qed.
Lemma does_inv_other x o o1 v w w' : x <> c -> distinct w -> holds_ w -> nth_error (objs w) x = Some o -> o_dev o1 = o_dev o ->
  does x o1 v w w' -> holds_ w'.
Proof.
  intros X D (o0 & N0 & DV0 & OP0 & Q0 & R0) N DE (L & O & P & LK & _). rewrite DE in *.
  assert (F : d <> o_dev o). { intros E. apply X. apply (D x c o o0 N N0). congruence. }
  exists o0. rewrite (O c (not_eq_sym X)), (P d F). split; [assumption|]. split; [assumption|]. split; [assumption|]. split; [assumption|].
  intros E. destruct (R0 E) as (I & R1). split; [apply LK; [exact F | exact I] | exact R1].
Qed.
Lemma moved_inv x v w w' : all_ok w -> distinct w -> holds_ w -> moved x v w w' -> inv w'.
Proof.
  intros K D H (AL & C) L. split; [exact (alike_ok _ _ AL K)|]. split; [exact (alike_distinct _ _ AL D)|].
  destruct C as [-> | [X | (o & o1 & N & CL & DE & OE & SE & DO)]]; [assumption | destruct X; congruence|].
  destruct (Nat.eq_dec x c) as [-> | X]; [exact (does_inv o o1 v w w' H N CL DE OE DO) | exact (does_inv_other x o o1 v w w' X D H N DE DO)].
Qed.

(** [e] leaves the settings of [d] to the daemon, or replaces them by good ones *)
Definition fine (e : op) : Prop := (not_set d e \/ forall p, Q p /\ R p) /\ puts d Q e.

Lemma step_inv w e : inv w -> fine e -> exists w', step drv me w e = Ok w' /\ inv w'.
Proof.
  intros IV (NS & PQ). destruct (life_ w) eqn:A.
  2-4: exists w; unfold step; rewrite A; split; [reflexivity | exact IV].
  destruct (IV A) as (K & D & H). clear IV.
  assert (SAME : forall w', objs w' = objs w -> ports w' d = ports w d -> (forall l, l_own l = Proc me -> In l (locks w) -> In l (locks w')) -> inv w').
  { intros w' OB PE LK. assert (AL : alike w w') by (apply alike_refl; exact OB).
    intros _. split; [exact (alike_ok _ _ AL K)|]. split; [exact (alike_distinct _ _ AL D)|].
    destruct H as (o & N & DV & OP & Q0 & R0). exists o. rewrite OB, PE. split; [assumption|]. split; [assumption|]. split; [assumption|]. split; [assumption|].
    intros E. destruct (R0 E) as (I & R1). split; [apply LK; [reflexivity | exact I] | exact R1]. }
  destruct e as [x can v | x can v | vs | | e p | e p | e b | i y e wr | i y e].
  - destruct (step_open x can v w A K) as (w' & E & C). exists w'. split; [exact E|]. exact (moved_inv x v w w' K D H C).
  - destruct (step_hangup x can v w A K) as (w' & E & C). exists w'. split; [exact E|]. exact (moved_inv x v w w' K D H C).
  - unfold step. rewrite A. eexists. split; [reflexivity|].
    intros X. contradiction (destroy_all_dead 0 (objs w) vs w X).
  - unfold step. rewrite A. eexists. split; [reflexivity|]. intros X. discriminate X.
  - unfold step. rewrite A. eexists. split; [reflexivity|]. destruct NS as [NS | ANY].
    + apply SAME; [reflexivity | | auto].
      cbn [set_ports ports]. cbn in NS. apply not_eq_sym in NS. apply Nat.eqb_neq in NS. rewrite NS. reflexivity.
    + intros _. split; [exact K|]. split; [exact D|]. destruct H as (o & N & DV & OP & Q0 & R0). exists o. cbn [set_ports objs locks].
      split; [exact N|]. split; [exact DV|]. split; [exact OP|]. split; [apply ANY|]. intros E. split; [apply (R0 E) | intros _; apply ANY].
  - unfold step. rewrite A. eexists. split; [reflexivity|].
    assert (AL : alike w (mkWorld (ports (set_ports w e p)) (stuck (set_ports w e p)) (locks (set_ports w e p)) (map (lose e) (objs (set_ports w e p))) (life_ (set_ports w e p)))).
    { intros x. cbn [set_ports objs]. rewrite nth_lose. destruct (nth_error (objs w) x); cbn; [|auto]. split; [apply lose_dev | apply lose_opts]. }
    intros _. split; [exact (alike_ok _ _ AL K)|]. split; [exact (alike_distinct _ _ AL D)|].
    destruct H as (o & N & DV & OP & Q0 & R0). exists (lose e o). cbn [set_ports objs ports locks]. rewrite nth_lose, N. split; [reflexivity|].
    rewrite lose_dev, lose_opts. split; [assumption|]. split; [assumption|].
    destruct (d =? e)%nat eqn:DE.
    + apply Nat.eqb_eq in DE. subst e. split; [apply PQ; reflexivity|]. unfold lose. rewrite DV, Nat.eqb_refl. cbn [andb].
      destruct (o_open o) eqn:OO; cbn [o_open o_lost]; [|rewrite OO; discriminate]. intros _. split; [apply R0; reflexivity | discriminate].
    + split; [assumption|]. unfold lose. rewrite DV, DE. cbn [andb]. exact R0.
  - unfold step. rewrite A. eexists. split; [reflexivity|]. apply SAME; auto.
  - unfold step. rewrite A. eexists. split; [reflexivity|].
    destruct (get_lock (Other i y) e wr (locks w)) as [ls|] eqn:G; [|apply SAME; auto].
    apply SAME; auto. intros l OL I. apply (get_lock_other _ _ _ _ _ _ G); [right; rewrite OL; reflexivity | exact I].
  - unfold step. rewrite A. eexists. split; [reflexivity|]. apply SAME; auto. intros l OL I. apply unlocked_owner; [rewrite OL; reflexivity | exact I].
Qed.
Lemma history_inv l w : inv w -> Forall fine l -> exists w', history drv me w l = Ok w' /\ inv w'.
Proof.
  revert w. induction l as [|e l IH]; intros w I F; [exists w; split; [reflexivity | exact I]|].
  inversion F as [|? ? FE FL]; subst. destruct (step_inv w e I FE) as (w1 & E & I1). cbn [history]. rewrite E. cbn [bind]. exact (IH w1 I1 FL).
Qed.
End Inv.

(** ** The settings from before *)
Section Back.
Variables (c d : nat) (opts : seropt) (p0 : port).
Hypothesis takes : drv d p0 = p0.
Definition keeps (w : world) : Prop :=
  exists o, nth_error (objs w) c = Some o /\ o_dev o = d /\ o_opts o = opts /\
    (o_open o = true -> o_lost o = false /\ o_saved o = p0) /\ (o_open o = false -> ports w d = p0).
Definition inv2 (w : world) : Prop :=
  (life_ w = Alive -> all_ok w /\ distinct w /\ keeps w) /\ (life_ w = Ended -> ports w d = p0).

Lemma moved_inv2 x v w w' : life_ w = Alive -> (x = c -> v = None) -> all_ok w -> distinct w -> keeps w -> moved x v w w' ->
  (x = c -> forall o, nth_error (objs w) c = Some o -> o_open o = false) -> life_ w' <> Ended -> inv2 w'.
Proof.
  intros A V K D H (AL & C) CL NE. split; [|intros X; contradiction]. intros L.
  split; [exact (alike_ok _ _ AL K)|]. split; [exact (alike_distinct _ _ AL D)|].
  destruct C as [-> | [X | (o & o1 & N & CO & DE & OE & SE & DO)]]; [assumption | destruct X; congruence|].
  destruct DO as (_ & O & P & _ & o' & N' & DV & OP & C). destruct H as (o0 & N0 & DV0 & OP0 & S0 & P0).
  destruct (Nat.eq_dec x c) as [-> | X].
  - rewrite N in N0. injection N0 as <-. specialize (P0 (CL eq_refl o N)). rewrite DE, OE in *. rewrite DV0, OP0 in *.
    exists o'. split; [assumption|]. split; [assumption|]. split; [assumption|].
    specialize (V eq_refl). subst v. destruct C as [(-> & PE) | (OT & IL & LO & SV & PC)].
    + rewrite CO. split; [discriminate|]. intros _. congruence.
    + rewrite OT. split; [|discriminate]. intros _. destruct (SV eq_refl) as (-> & ->). split; [reflexivity | exact P0].
  - assert (F : d <> o_dev o1). { rewrite DE. intros E. apply X. apply (D x c o o0 N N0). congruence. }
    exists o0. rewrite (O c (not_eq_sym X)), (P d F). auto.
Qed.
Lemma moved_not_ended x v w w' : life_ w = Alive -> moved x v w w' -> life_ w' <> Ended.
Proof. intros A (_ & [-> | [[X | X] | (o & o1 & _ & _ & _ & _ & _ & (L & _))]]); congruence. Qed.

Lemma step_inv2 w e : inv2 w -> stays c d e -> exists w', step drv me w e = Ok w' /\ inv2 w'.
Proof.
  intros IV ST. destruct (life_ w) eqn:A.
  2-4: exists w; unfold step; rewrite A; split; [reflexivity | exact IV].
  destruct (proj1 IV A) as (K & D & H). clear IV.
  assert (SAME : forall w', life_ w' = Alive -> objs w' = objs w -> ports w' d = ports w d -> inv2 w').
  { intros w' A' OB PE. assert (AL : alike w w') by (apply alike_refl; exact OB). split; [intros _ | congruence].
    split; [exact (alike_ok _ _ AL K)|]. split; [exact (alike_distinct _ _ AL D)|].
    destruct H as (o & N & DV & OP & S0 & P0). exists o. rewrite OB, PE. auto. }
  destruct e as [x can v | x can v | vs | | e p | e p | e b | i y e wr | i y e].
  - destruct (step_open x can v w A K) as (w' & E & C). exists w'. split; [exact E|].
    destruct (Nat.eq_dec x c) as [-> | X].
    + destruct (is_open w c) eqn:IO.
      * (* open already: nothing happens *)
        unfold step in E. rewrite A in E. unfold is_open in IO. destruct (nth_error (objs w) c) as [o|] eqn:N; [|discriminate].
        rewrite IO in E. injection E as <-. apply SAME; auto.
      * apply (moved_inv2 c v w w' A); auto.
        -- intros _ o N. unfold is_open in IO. rewrite N in IO. exact IO.
        -- exact (moved_not_ended _ _ _ _ A C).
    + apply (moved_inv2 x v w w' A); auto; try (intros X'; contradiction); exact (moved_not_ended _ _ _ _ A C).
  - destruct (step_hangup x can v w A K) as (w' & E & C). exists w'. split; [exact E|]. cbn in ST.
    apply (moved_inv2 x v w w' A); auto; try (intros X'; contradiction); exact (moved_not_ended _ _ _ _ A C).
  - unfold step. rewrite A. eexists. split; [reflexivity|]. split; [intros X; contradiction (destroy_all_dead 0 (objs w) vs w X)|]. intros L.
    destruct H as (o & N & DV & OP & S0 & P0). rewrite <- DV. rewrite (destroy_all_ended 0 (objs w) vs w c o L N ST); auto.
    + destruct (o_open o) eqn:OO; cbn [andb].
      * destruct (S0 eq_refl) as (-> & ->). cbn [negb]. rewrite DV. exact takes.
      * rewrite DV. apply P0. reflexivity.
    + intros j o' J X. exact (D j c o' o J N X).
  - unfold step. rewrite A. eexists. split; [reflexivity|]. split; intros X; discriminate X.
  - unfold step. rewrite A. eexists. split; [reflexivity|]. apply SAME; [exact A | reflexivity|].
    cbn [set_ports ports]. cbn in ST. apply not_eq_sym in ST. apply Nat.eqb_neq in ST. rewrite ST. reflexivity.
  - unfold step. rewrite A. eexists. split; [reflexivity|]. cbn in ST. apply not_eq_sym in ST. pose proof ST as ST'. apply Nat.eqb_neq in ST.
    set (w' := mkWorld _ _ _ _ _).
    assert (AL : alike w w').
    { intros x. unfold w'. cbn [set_ports objs]. rewrite nth_lose. destruct (nth_error (objs w) x); cbn; [|auto]. split; [apply lose_dev | apply lose_opts]. }
    split; [intros _ | unfold w'; cbn; congruence]. split; [exact (alike_ok _ _ AL K)|]. split; [exact (alike_distinct _ _ AL D)|].
    destruct H as (o & N & DV & OP & S0 & P0). exists o. unfold w'. cbn [set_ports objs ports]. rewrite nth_lose, N. cbn [option_map]. rewrite ST.
    split; [|auto]. unfold lose. rewrite DV, ST. reflexivity.
  - unfold step. rewrite A. eexists. split; [reflexivity|]. apply SAME; auto.
  - unfold step. rewrite A. eexists. split; [reflexivity|]. destruct (get_lock (Other i y) e wr (locks w)); apply SAME; auto.
  - unfold step. rewrite A. eexists. split; [reflexivity|]. apply SAME; auto.
Qed.
Lemma history_inv2 l w : inv2 w -> Forall (stays c d) l -> exists w', history drv me w l = Ok w' /\ inv2 w'.
Proof.
  revert w. induction l as [|e l IH]; intros w I F; [exists w; split; [reflexivity | exact I]|].
  inversion F as [|? ? FE FL]; subst. destruct (step_inv2 w e I FE) as (w1 & E & I1). cbn [history]. rewrite E. cbn [bind]. exact (IH w1 I1 FL).
Qed.
End Back.
End Line.

(** ** The names *)
Lemma NoDup_snoc {A} (l : list A) x : NoDup l -> ~ In x l -> NoDup (l ++ [x]).
Proof.
  intros N I. apply NoDup_rev in N. rewrite <- (rev_involutive (l ++ [x])). apply NoDup_rev. rewrite rev_app_distr. cbn.
  constructor; [intros X; apply I; apply in_rev; exact X | exact N].
Qed.
Lemma clash_in l n d : existsb (fun o : list Z * list Z => list_eqb (fst o) n || list_eqb (snd o) d) l = false <-> ~ In n (map fst l) /\ ~ In d (map snd l).
Proof.
  induction l as [|(a, b) l IH]; cbn [existsb map fst snd]; [cbn; tauto|]. rewrite !orb_false_iff, IH.
  assert (LE : forall x y, list_eqb x y = false <-> x <> y).
  { intros x y. pose proof (list_eqb_eq x y) as X. destruct (list_eqb x y); split; intros Y; try congruence; try (intros Z; apply X in Z; congruence).
    exfalso. apply Y. apply X. reflexivity. }
  rewrite !LE. cbn [In]. tauto.
Qed.
Lemma create_all_ok defs : forall l0 l, create_all l0 defs = Some l -> NoDup (map fst l0) -> NoDup (map snd l0) ->
  l = l0 ++ defs /\ NoDup (map fst l) /\ NoDup (map snd l).
Proof.
  induction defs as [|(n, d) defs IH]; intros l0 l E N1 N2; cbn [create_all] in E.
  - injection E as <-. rewrite app_nil_r. auto.
  - unfold create_serial_obj in E. destruct (existsb _ l0) eqn:X; [discriminate|]. apply clash_in in X as (X1 & X2).
    destruct (IH _ _ E) as (-> & R).
    + rewrite map_app. apply NoDup_snoc; assumption.
    + rewrite map_app. apply NoDup_snoc; assumption.
    + rewrite <- app_assoc. split; [reflexivity | rewrite <- app_assoc in R; exact R].
Qed.
Lemma NoDup_mid {A} (a : list A) x b : NoDup (a ++ x :: b) -> ~ In x a.
Proof. intros N I. apply NoDup_remove_2 in N. apply N. apply in_or_app. auto. Qed.
Lemma create_all_takes defs : forall l0, NoDup (map fst (l0 ++ defs)) -> NoDup (map snd (l0 ++ defs)) -> create_all l0 defs = Some (l0 ++ defs).
Proof.
  induction defs as [|(n, d) defs IH]; intros l0 N1 N2; cbn [create_all]; [rewrite app_nil_r; reflexivity|].
  unfold create_serial_obj. rewrite (proj2 (clash_in l0 n d)).
  - rewrite (IH (l0 ++ [(n, d)])); rewrite <- app_assoc; auto.
  - rewrite !map_app in *. cbn [map fst snd] in *. split; [exact (NoDup_mid _ _ _ N1) | exact (NoDup_mid _ _ _ N2)].
Qed.
Lemma NoDup_map_inj {A B} (f : A -> B) l : (forall x y, In x l -> In y l -> f x = f y -> x = y) -> NoDup l -> NoDup (map f l).
Proof.
  induction l as [|a l IH]; intros J N; [constructor|]. inversion N; subst. cbn. constructor.
  - intros I. apply in_map_iff in I as (y & E & Y). rewrite (J y a (or_intror Y) (or_introl eq_refl) E) in Y. contradiction.
  - apply IH; [|assumption]. intros x y X Y. apply J; right; assumption.
Qed.
