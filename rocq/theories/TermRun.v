From Coq Require Import String.
From Verif Require Import Base BaseProof Mem Chars Fmt StrModel StrSpec StrProof MsgModel MsgSpec MsgProof EscModel EscSpec EscProof TermModel TermSpec TermProof.
From Coq Require Import ZifyNat.
Local Open Scope Z_scope.
Local Open Scope list_scope.

(** ** Keys *)
Definition kind (t : tty) (k : Z) (t' : tty) (sn : list Z) (ls : list local) : Prop :=
  (ls = [] /\ t_echo t' = t_echo t /\ t_closed t' = t_closed t) \/
  (ls = [LEcho] /\ sn = [] /\ t_echo t' = negb (t_echo t) /\ t_closed t' = t_closed t) \/
  ((ls = [LHelp] \/ ls = [LInfo]) /\ sn = [] /\ t_echo t' = t_echo t /\ t_closed t' = t_closed t) \/
  (ls = [LClose] /\ sn = [] /\ t_echo t' = t_echo t /\ t_closed t' = true /\ k = 46) \/
  (ls = [LSuspended] /\ sn = [255; 90; 255; 90] /\ t_echo t' = t_echo t /\ t_closed t' = t_closed t /\ k = 90).
Lemma keystroke_kind esc buf t k : List.length buf = 4%nat -> exists t' sn ls, keystroke esc buf t k = Ok (t', sn, ls) /\ kind t k t' sn ls.
Proof.
  intros J. unfold keystroke, kind.
  assert (P : forall p m, (List.length p <= 1)%nat -> exists t' sn, send_char (with_mode t m) p k buf = Ok (t', sn, []) /\ t_echo t' = t_echo t /\ t_closed t' = t_closed t).
  { intros p m L. rewrite send_char_ok by assumption. eexists _, _. split; [reflexivity|]. split; reflexivity. }
  assert (N : exists t' sn ls, (if k =? esc then Ok (with_mode t MEsc, [], []) else send_char t [] k buf) = Ok (t', sn, ls) /\ ls = [] /\ t_echo t' = t_echo t /\ t_closed t' = t_closed t).
  { destruct (k =? esc); [eexists _, _, _; split; [reflexivity|]; auto|]. rewrite send_char_ok by (auto; cbn; lia). eexists _, _, _. split; [reflexivity|]. auto. }
  destruct (t_mode t); try (destruct N as (t' & sn & ls & E & R); exists t', sn, ls; split; [exact E|left; exact R]).
  assert (Q : (exists t' sn ls, perform_esc (with_mode t MEol) k = Some (t', sn, ls) /\ kind t k t' sn ls) \/ perform_esc (with_mode t MEol) k = None).
  { unfold perform_esc, kind, ESC_BREAK, ESC_CLOSE, ESC_DEL, ESC_ECHO, ESC_FORCE, ESC_HELP, ESC_INFO, ESC_JOIN, ESC_REPLAY, ESC_MONITOR, ESC_QUIET, ESC_RESET, ESC_SUSPEND.
    repeat match goal with
    | |- context [if ?a =? ?b then Some _ else _] =>
        destruct (Z.eqb_spec a b);
        [left; subst; destruct t as [m [|] [|] ec qu [|] cl]; cbn; eexists _, _, _; (split; [reflexivity|]); cbn; tauto|]
    end. right. reflexivity. }
  destruct Q as [(t' & sn & ls & E & K) | E]; rewrite E; [exists t', sn, ls; split; [reflexivity|exact K]|].
  destruct (P (if k =? esc then [] else [uchar esc]) MEol) as (t' & sn & E2 & R); [destruct (k =? esc); cbn; lia|]. exists t', sn, []. split; [exact E2|left; tauto].
Qed.

(** ** Calls *)
Definition quiet (a : act) : Prop := match a with AOut true _ | ALog _ => False | _ => True end.
Lemma from_app o o' : from_server (o ++ o') = from_server o ++ from_server o'.
Proof. apply flat_map_app. Qed.
Lemma exec_quiet : forall l s rs s' e, exec s rs l = (s', e) -> Forall quiet l -> from_server (out s') = from_server (out s) /\ log_ s' = log_ s /\ done s' = done s /\ ses s' = ses s /\ saved s' = saved s.
Proof.
  induction l as [|a l IH]; intros s rs s' e E F; cbn [exec] in E; [injection E as <- _; auto|]. inversion F as [|? ? F1 F2]; subst.
  assert (D : from_server (out (do_act s a)) = from_server (out s) /\ log_ (do_act s a) = log_ s /\ done (do_act s a) = done s /\ ses (do_act s a) = ses s /\ saved (do_act s a) = saved s).
  { destruct a as [[|] b|b|b| | | | | |]; try contradiction; cbn [do_act set_now out log_ done ses saved]; auto. rewrite from_app. cbn. rewrite app_nil_r. auto. }
  destruct D as (D1 & D2 & D3 & D4 & D5).
  assert (G : forall r s' e, exec (do_act s a) r l = (s', e) -> from_server (out s') = from_server (out s) /\ log_ s' = log_ s /\ done s' = done s /\ ses s' = ses s /\ saved s' = saved s).
  { intros r x y X. destruct (IH _ _ _ _ X F2) as (A & B & C & D & H). repeat split; congruence. }
  destruct (hd Good rs) as [| | |t]; try (injection E as <- _; auto; fail).
  - eapply G; exact E.
  - destruct a; try (injection E as <- _; auto; fail).
  - destruct a; try (eapply G; exact E). destruct (IH _ _ _ _ E F2) as (A & B & C & D & H). cbn [set_now do_act out log_ done ses saved] in *. auto.
Qed.
(** acts that leave the terminal *)
Definition still (a : act) : Prop := match a with ARaw | AToggle | ARestore | AStop => False | _ => True end.
Lemma exec_still : forall l s rs s' e, exec s rs l = (s', e) -> Forall still l -> now s' = now s /\ stops s' = stops s /\ saved s' = saved s.
Proof.
  induction l as [|a l IH]; intros s rs s' e E F; cbn [exec] in E; [injection E as <- _; auto|]. inversion F as [|? ? F1 F2]; subst.
  assert (G : forall r s' e, exec (do_act s a) r l = (s', e) -> now s' = now s /\ stops s' = stops s /\ saved s' = saved s).
  { intros r x y X. destruct (IH _ _ _ _ X F2) as (A & B & C). rewrite A, B, C. destruct a; try contradiction; auto. }
  destruct (hd Good rs) as [| | |t]; try (injection E as <- _; auto; fail); try (destruct a; try contradiction; try (injection E as <- _; auto; fail); eapply G; exact E).
Qed.
Fixpoint sends (l : list act) : list Z := match l with [] => [] | ASend b :: l => b ++ sends l | _ :: l => sends l end.
Lemma exec_fine : forall l s rs, Forall fine_result rs -> exists s', exec s rs l = (s', All) /\ sent s' = sent s ++ sends l.
Proof.
  induction l as [|a l IH]; intros s rs F; cbn [exec sends]; [exists s; rewrite app_nil_r; auto|].
  assert (H : fine_result (hd Good rs) /\ Forall fine_result (tl rs)) by (destruct rs as [|r rs]; [split; [split; discriminate|constructor]|inversion F; auto]).
  destruct H as [[H1 H2] H3].
  assert (S1 : sent (do_act s a) ++ sends l = sent s ++ match a with ASend b => b ++ sends l | _ => sends l end) by (destruct a; cbn [do_act set_now sent]; try reflexivity; rewrite app_assoc; reflexivity).
  destruct (hd Good rs) as [| | |t]; try congruence.
  - destruct (IH (do_act s a) (tl rs) H3) as (s' & E & X). exists s'. split; [exact E|]. rewrite X. exact S1.
  - assert (G : exists s', exec (do_act s a) (tl rs) l = (s', All) /\ sent s' = sent s ++ match a with ASend b => b ++ sends l | _ => sends l end) by (destruct (IH (do_act s a) (tl rs) H3) as (s' & E & X); exists s'; split; [exact E|rewrite X; exact S1]).
    destruct a; try exact G.
    destruct (IH (set_now (do_act s AStop) t) (tl rs) H3) as (s' & E & X). exists s'. split; [exact E|]. rewrite X. exact S1.
Qed.

(** ** The invariant *)
Definition weak (orig : termios) (s : st) : Prop := saved s = orig /\ Forall (fun t => t = orig) (stops s).
Definition inv (orig : termios) (s : st) : Prop := weak orig s /\ raw_mode (now s) /\ (stops s = [] -> echoing (now s) = t_echo (ses s)).

Lemma letter_echo c k : cfg_ok c -> k = 46 \/ k = 90 -> exists e, locally_echo_esc (key_buf c) (escape c) k = Ok e.
Proof. intros (_ & _ & J & _) K. destruct (echo_safe (key_buf c) (escape c) k J) as (e & E & _); [destruct K; subst; lia|]. eauto. Qed.
Lemma msg_chars : chars_ok (zs "suspended") /\ chars_ok (zs "resumed") /\ chars_ok (zs "closed") /\ chars_ok (zs "opened") /\ chars_ok (zs "terminated by server").
Proof. repeat split; ch. Qed.
Lemma info_total c t : cfg_ok c -> exists x, info c t = Ok x.
Proof. intros (NE & _). unfold info, single, first_name. destruct (names c) as [|n [|m l]]; [congruence| |]; cbn [List.length Nat.eqb bind]; eexists; reflexivity. Qed.
Lemma key_acts_total dbg c t k t' sn ls : cfg_ok c -> kind t k t' sn ls -> exists l, key_acts dbg c t' k sn ls = Ok l /\ Forall quiet l /\ sends l = sn.
Proof.
  intros CO K. destruct msg_chars as (M1 & M2 & M3 & M4 & M5). unfold kind in K. destruct K as [(-> & _) | [(-> & -> & _) | [([-> | ->] & -> & _) | [(-> & -> & _ & _ & ->) | (-> & -> & _ & _ & ->)]]]]; cbn [key_acts].
  - destruct sn as [|x sn]; eexists; (split; [reflexivity|]); (split; [repeat constructor|]); cbn [sends]; rewrite ?app_nil_r; reflexivity.
  - eexists. split; [reflexivity|]. split; [repeat constructor|reflexivity].
  - rewrite help_ok by apply CO. cbn [bind]. eexists. split; [reflexivity|]. split; [repeat constructor|reflexivity].
  - destruct (info_total c t' CO) as (x & ->). cbn [bind]. eexists. split; [reflexivity|]. split; [repeat constructor|reflexivity].
  - destruct (letter_echo c 46 CO (or_introl eq_refl)) as (e & ->). cbn [bind]. rewrite status_ok by assumption. cbn [bind]. eexists. split; [reflexivity|]. split; [repeat constructor|reflexivity].
  - destruct (letter_echo c 90 CO (or_intror eq_refl)) as (e & ->). cbn [bind]. rewrite !status_ok by assumption. cbn [bind]. eexists. split; [reflexivity|]. split; [repeat constructor|reflexivity].
Qed.
(** suspension, call by call *)
Lemma exec_cons s rs a l s' r : exec s rs (a :: l) = (s', r) -> (r = Fatal_ /\ s' = s) \/ (r = Pipe /\ s' = s /\ exists b, a = ASend b) \/
  exists rs' x, exec x rs' l = (s', r) /\ (x = do_act s a \/ a = AStop /\ exists t, x = set_now (do_act s a) t).
Proof.
  cbn [exec]. destruct (hd Good rs) as [| | |t].
  - intros E. right. right. exists (tl rs), (do_act s a). auto.
  - destruct a; intros E; injection E as <- <-; eauto 6.
  - intros E. assert (X : (s, Fatal_) = (s', r)) by (destruct a; exact E). injection X as <- <-. auto.
  - intros E. right. right. assert (X : exec (do_act s a) (tl rs) l = (s', r) \/ a = AStop /\ exec (set_now (do_act s a) t) (tl rs) l = (s', r)) by (destruct a; auto). destruct X as [X | [-> X]]; [exists (tl rs), (do_act s a); auto|exists (tl rs), (set_now (do_act s AStop) t); eauto 6].
Qed.
Lemma suspend_inv orig t' s rs e s1 s2 b1 b2 s' r : saved s = orig -> raw_mode (now s) -> Forall (fun t => t = orig) (stops s) -> (stops s = [] -> echoing (now s) = t_echo t') ->
  exec (set_ses s t') rs [AOut false e; ASend b1; AOut false s1; ARestore; AStop; ARaw; AOut false s2; ASend b2] = (s', r) ->
  weak orig s' /\ (r <> Fatal_ -> raw_mode (now s') /\ (stops s' = [] -> echoing (now s') = t_echo t')).
Proof.
  intros SV RA FO EC E. unfold weak.
  assert (ST : Forall (fun t => t = orig) (stops s ++ [saved s])) by (rewrite Forall_app; split; [exact FO|constructor; [exact SV|constructor]]).
  assert (NN : forall t, stops s ++ [t] = [] -> False) by (intros t X; destruct (stops s); discriminate X).
  apply exec_cons in E as [[-> ->] | [(_ & _ & ? & X) | (rs1 & x1 & E & [-> | [X _]])]]; try discriminate X; [split; [auto|congruence]|].
  apply exec_cons in E as [[-> ->] | [(-> & -> & _) | (rs2 & x2 & E & [-> | [X _]])]]; try discriminate X; [split; [auto|congruence]|split; auto|].
  apply exec_cons in E as [[-> ->] | [(_ & _ & ? & X) | (rs3 & x3 & E & [-> | [X _]])]]; try discriminate X; [split; [auto|congruence]|].
  apply exec_cons in E as [[-> ->] | [(_ & _ & ? & X) | (rs4 & x4 & E & [-> | [X _]])]]; try discriminate X; [split; [auto|congruence]|].
  apply exec_cons in E as [[-> ->] | [(_ & _ & ? & X) | (rs5 & x5 & E & X)]]; try discriminate X; [split; [auto|congruence]|].
  assert (S5 : saved x5 = orig) by (destruct X as [-> | (_ & t & ->)]; exact SV).
  assert (T5 : Forall (fun t => t = orig) (stops x5) /\ stops x5 <> []) by (destruct X as [-> | (_ & t & ->)]; cbn [do_act set_now stops set_ses now saved]; (split; [exact ST|exact (NN _)])). clear X. destruct T5 as [T5 N5].
  apply exec_cons in E as [[-> ->] | [(_ & _ & ? & X) | (rs6 & x6 & E & [-> | [X _]])]]; try discriminate X; [split; [auto|congruence]|].
  apply exec_cons in E as [[-> ->] | [(_ & _ & ? & X) | (rs7 & x7 & E & [-> | [X _]])]]; try discriminate X; [split; [auto|congruence]|].
  assert (R7 : raw_mode (now (do_act (do_act x5 ARaw) (AOut false s2)))) by apply raw_ok.
  apply exec_cons in E as [[-> ->] | [(-> & -> & _) | (rs8 & x8 & E & [-> | [X _]])]]; try discriminate X; [split; [auto|congruence]| |]; [|cbn [exec] in E; injection E as <- <-]; (split; [split; [exact S5|exact T5]|]); intros _; (split; [exact R7|]); intros Y; destruct (N5 Y).
Qed.
Lemma read_key_inv dbg c orig s k rs : cfg_ok c -> inv orig s -> exists s' ok, read_from_stdin dbg c s k rs = Ok (s', ok) /\ weak orig s' /\ from_server (out s') = from_server (out s) /\ log_ s' = log_ s /\
  (ok = true -> inv orig s').
Proof.
  intros CO (W & RA & EC). destruct k as [k| |]; cbn [read_from_stdin].
  - destruct (keystroke_kind (escape c) (key_buf c) (ses s) k (proj1 (proj2 (proj2 CO)))) as (t' & sn & ls & E & K). rewrite E. cbn [bind].
    destruct (key_acts_total dbg c (ses s) k t' sn ls CO K) as (l & EA & Q & SN). rewrite EA. cbn [bind].
    destruct (exec (set_ses s t') rs l) as [s1 e] eqn:EX. destruct (exec_quiet _ _ _ _ _ EX Q) as (O1 & L1 & D1 & S1 & SV1). cbn [set_ses out log_ done ses saved] in *.
    assert (G : weak orig s1 /\ (e <> Fatal_ -> raw_mode (now s1) /\ (stops s1 = [] -> echoing (now s1) = t_echo t'))).
    { destruct K as [(-> & EE & _) | [(-> & -> & EE & _) | [([-> | ->] & -> & EE & _) | [(-> & -> & EE & _ & ->) | (-> & -> & EE & _ & ->)]]]]; cbn [key_acts] in EA.
      - assert (ST : Forall still l) by (destruct sn; injection EA as <-; repeat constructor). destruct (exec_still _ _ _ _ _ EX ST) as (X & Y & V). unfold weak. rewrite X, Y, V. cbn [set_ses now stops saved]. rewrite EE. split; [exact W|auto].
      - injection EA as <-. cbn [exec] in EX. unfold weak. destruct W as [W1 W2]. destruct (hd Good rs); injection EX as <- <-; cbn [do_act set_ses set_now now stops saved]; (split; [auto|]); intros NF; try congruence; (split; [apply toggle_ok; exact RA|]); intros X; rewrite EE, (proj2 (toggle_ok _)), (EC X); reflexivity.
      - destruct (help dbg c t') as [h|]; [|discriminate EA]. cbn [bind] in EA. injection EA as <-. assert (ST : Forall still [AOut false h]) by (repeat constructor). destruct (exec_still _ _ _ _ _ EX ST) as (X & Y & V). unfold weak. rewrite X, Y, V. cbn [set_ses now stops saved]. rewrite EE. split; [exact W|auto].
      - destruct (info c t') as [h|]; [|discriminate EA]. cbn [bind] in EA. injection EA as <-. assert (ST : Forall still [AOut false h]) by (repeat constructor). destruct (exec_still _ _ _ _ _ EX ST) as (X & Y & V). unfold weak. rewrite X, Y, V. cbn [set_ses now stops saved]. rewrite EE. split; [exact W|auto].
      - destruct (locally_echo_esc _ _ _) as [h|]; [|discriminate EA]. cbn [bind] in EA. destruct (status c (zs "closed")) as [h2|]; [|discriminate EA]. cbn [bind] in EA. injection EA as <-. assert (ST : Forall still [AOut false h; AOut false h2; AShut]) by (repeat constructor). destruct (exec_still _ _ _ _ _ EX ST) as (X & Y & V). unfold weak. rewrite X, Y, V. cbn [set_ses now stops saved]. rewrite EE. split; [exact W|auto].
      - destruct (locally_echo_esc _ _ _) as [h|]; [|discriminate EA]. cbn [bind] in EA. destruct (status c (zs "suspended")) as [h2|]; [|discriminate EA]. cbn [bind] in EA. destruct (status c (zs "resumed")) as [h3|]; [|discriminate EA]. cbn [bind] in EA. injection EA as <-.
        destruct W as [W1 W2]. eapply suspend_inv; [exact W1|exact RA|exact W2| |exact EX]. rewrite EE. exact EC. }
    destruct G as [G1 G2]. destruct e; eexists _, _; (split; [reflexivity|]); cbn [fst snd set_done out log_ saved stops].
    + split; [exact G1|]. split; [exact O1|]. split; [exact L1|]. intros _. split; [exact G1|]. rewrite S1. apply G2. discriminate.
    + split; [exact G1|]. split; [exact O1|]. split; [exact L1|]. intros _. split; [exact G1|]. cbn [set_done now stops ses]. rewrite S1. apply G2. discriminate.
    + split; [exact G1|]. split; [exact O1|]. split; [exact L1|]. discriminate.
  - eexists _, _. split; [reflexivity|]. split; [exact W|]. split; [reflexivity|]. split; [reflexivity|]. intros _. split; [exact W|]. split; [exact RA|exact EC].
  - eexists _, _. split; [reflexivity|]. split; [exact W|]. split; [reflexivity|]. split; [reflexivity|]. discriminate.
Qed.
Lemma logged_nil l : logged l [] = l.
Proof. destruct l; cbn [logged]; [rewrite app_nil_r|]; reflexivity. Qed.
Lemma logged_app l a b : logged (logged l a) b = logged l (a ++ b).
Proof. destruct l; cbn [logged]; [rewrite app_assoc|]; reflexivity. Qed.
(** what is shown and logged of [d] *)
Definition part (s s' : st) (d : list Z) : Prop := exists p q p' q', d = p ++ q /\ p = p' ++ q' /\ from_server (out s') = from_server (out s) ++ p /\ log_ s' = logged (log_ s) p'.
Lemma part_no s d : part s s d.
Proof. exists [], d, [], []. split; [reflexivity|]. split; [reflexivity|]. split; [symmetry; apply app_nil_r|symmetry; apply logged_nil]. Qed.
Lemma write_inv s d rs : exists s' ok, write_to_stdout s d rs = (s', ok) /\ now s' = now s /\ stops s' = stops s /\ saved s' = saved s /\ ses s' = ses s /\ sent s' = sent s /\
  (let b := match d with Bytes b => b | _ => [] end in
   if ok then from_server (out s') = from_server (out s) ++ b /\ log_ s' = logged (log_ s) b else part s s' b).
Proof.
  destruct d as [b| |]; cbn [write_to_stdout].
  - assert (NO : part s s b) by apply part_no.
    assert (FS : from_server (out (do_act s (AOut true b))) = from_server (out s) ++ b) by (cbn [do_act out]; rewrite from_app; cbn; rewrite app_nil_r; reflexivity).
    destruct (log_ s) as [lg|] eqn:LG; cbn [exec].
    + destruct (hd Good rs); try (eexists _, _; split; [reflexivity|]; auto 9; fail).
      all: destruct (hd Good (tl rs)); eexists _, _; (split; [reflexivity|]); do 5 (split; [reflexivity|]); cbv zeta; try (split; [exact FS|]; cbn [do_act log_]; rewrite LG; reflexivity);
        exists b, [], [], b; rewrite app_nil_r, logged_nil; cbn [app]; (split; [reflexivity|]); (split; [reflexivity|]); (split; [exact FS|]); cbn [do_act log_]; rewrite LG; reflexivity.
    + destruct (hd Good rs); try (eexists _, _; split; [reflexivity|]; auto 9; fail).
      all: eexists _, _; (split; [reflexivity|]); do 5 (split; [reflexivity|]); cbv zeta; split; [exact FS|]; cbn [do_act log_]; rewrite LG; reflexivity.
  - eexists _, _. split; [reflexivity|]. do 5 (split; [reflexivity|]). cbv zeta. rewrite app_nil_r, logged_nil. auto.
  - eexists _, _. split; [reflexivity|]. do 5 (split; [reflexivity|]). apply part_no.
Qed.
Lemma inv_eq orig s s' : now s' = now s -> stops s' = stops s -> saved s' = saved s -> ses s' = ses s -> inv orig s -> inv orig s'.
Proof. intros A B C D (W & R & E). unfold inv, weak in *. rewrite A, B, C, D. auto. Qed.

Definition shows (s s' : st) (d : list Z) : Prop := from_server (out s') = from_server (out s) ++ d /\ log_ s' = logged (log_ s) d.
Lemma shows_nil s : shows s s []. Proof. unfold shows. rewrite app_nil_r, logged_nil. auto. Qed.
Lemma shows_trans a b c x y : shows a b x -> shows b c y -> shows a c (x ++ y).
Proof. intros [A B] [C D]. split; [rewrite C, A, app_assoc; reflexivity|rewrite D, B, logged_app; reflexivity]. Qed.
Lemma part_trans a b c x y : shows a b x -> part b c y -> part a c (x ++ y).
Proof.
  intros [A B] (p & q & p' & q' & -> & -> & C & D). exists (x ++ p' ++ q'), q, (x ++ p'), q'. split; [rewrite <- !app_assoc; reflexivity|]. split; [rewrite <- !app_assoc; reflexivity|]. split; [rewrite C, A, <- !app_assoc; reflexivity|rewrite D, B, logged_app; reflexivity].
Qed.
Lemma part_more a b x y : part a b x -> part a b (x ++ y).
Proof. intros (p & q & p' & q' & -> & E & C & D). exists p, (q ++ y), p', q'. rewrite <- app_assoc. auto. Qed.

Lemma loop_inv dbg c orig : cfg_ok c -> forall l s, inv orig s ->
  exists s' ph, loop dbg c s l = Ok (s', ph) /\ weak orig s' /\
  match ph with
  | Waiting => inv orig s' /\ shows s s' (data l)
  | Over rem => inv orig s' /\ done s' = true /\ exists used, l = used ++ rem /\ shows s s' (data used)
  | Dead => part s s' (data l)
  end.
Proof.
  intros CO. induction l as [|e l IH]; intros s I; cbn [loop].
  { eexists _, _. split; [reflexivity|]. split; [apply I|]. split; [exact I|apply shows_nil]. }
  destruct e as [k d late|term| |].
  - assert (R1 : exists s1 ok, (match k with Some (k, rs) => read_from_stdin dbg c s k rs | None => Ok (s, true) end) = Ok (s1, ok) /\ weak orig s1 /\ shows s s1 [] /\ (ok = true -> inv orig s1)).
    { destruct k as [[k rs]|]; [|exists s, true; split; [reflexivity|]; split; [apply I|]; split; [apply shows_nil|auto]]. destruct (read_key_inv dbg c orig s k rs CO I) as (s1 & ok & E & W & O & L & G). exists s1, ok. split; [exact E|]. split; [exact W|]. split; [|exact G]. unfold shows. rewrite O, L, app_nil_r, logged_nil. auto. }
    destruct R1 as (s1 & ok & -> & W1 & SH1 & G1). cbn [bind fst snd]. destruct ok.
    2:{ eexists _, _. split; [reflexivity|]. split; [exact W1|]. change (data (Ready k d late :: l)) with ([] ++ data (Ready k d late :: l)). eapply part_trans; [exact SH1|]. apply part_no. }
    specialize (G1 eq_refl).
    assert (R2 : exists s2 ok2, (match d with Some (d, rs) => write_to_stdout s1 d rs | None => (s1, true) end) = (s2, ok2) /\ inv orig s2 /\ (if ok2 then shows s1 s2 (data_of (Ready k d late)) else part s1 s2 (data_of (Ready k d late)))).
    { destruct d as [[d rs]|]; [|exists s1, true; split; [reflexivity|]; split; [exact G1|apply shows_nil]]. destruct (write_inv s1 d rs) as (s2 & ok2 & E & A & B & C & D & F & H). exists s2, ok2. split; [exact E|]. split; [eapply inv_eq; eassumption|].
      cbn [data_of]. destruct d, ok2; exact H. }
    destruct R2 as (s2 & ok2 & -> & I2 & H2). destruct ok2.
    2:{ eexists _, _. split; [reflexivity|]. split; [apply I2|]. cbn [data flat_map]. fold (data l). apply part_more. change (data_of (Ready k d late)) with ([] ++ data_of (Ready k d late)). eapply part_trans; eassumption. }
    assert (SH2 : shows s s2 (data_of (Ready k d late))) by (change (data_of (Ready k d late)) with ([] ++ data_of (Ready k d late)); eapply shows_trans; eassumption).
    set (s3 := if late then set_done s2 else s2). assert (I3 : inv orig s3) by (unfold s3; destruct late; [exact (inv_eq orig s2 (set_done s2) eq_refl eq_refl eq_refl eq_refl I2)|exact I2]).
    assert (SH3 : shows s s3 (data_of (Ready k d late))) by (unfold s3; destruct late; exact SH2). destruct (done s3) eqn:DN.
    + eexists _, _. split; [reflexivity|]. split; [apply I3|]. split; [exact I3|]. split; [exact DN|]. exists [Ready k d late]. split; [reflexivity|]. cbn [data flat_map]. rewrite app_nil_r. exact SH3.
    + destruct (IH s3 I3) as (s' & ph & E & W & R). exists s', ph. split; [exact E|]. split; [exact W|]. cbn [data flat_map]. fold (data l). destruct ph as [|rem|].
      * destruct R as [R1 R2]. split; [exact R1|eapply shows_trans; eassumption].
      * destruct R as (R1 & R2 & used & -> & R3). split; [exact R1|]. split; [exact R2|]. exists (Ready k d late :: used). split; [reflexivity|]. cbn [data flat_map]. eapply shows_trans; eassumption.
      * eapply part_trans; eassumption.
  - set (s3 := if term then set_done s else s). assert (I3 : inv orig s3) by (unfold s3; destruct term; [exact (inv_eq orig s (set_done s) eq_refl eq_refl eq_refl eq_refl I)|exact I]).
    assert (SH3 : shows s s3 []) by (unfold s3; destruct term; exact (shows_nil s)). cbv zeta. destruct (done s3) eqn:DN.
    + eexists _, _. split; [reflexivity|]. split; [apply I3|]. split; [exact I3|]. split; [exact DN|]. exists [Interrupted term]. split; [reflexivity|exact SH3].
    + destruct (IH s3 I3) as (s' & ph & E & W & R). exists s', ph. split; [exact E|]. split; [exact W|]. cbn [data flat_map data_of app]. fold (data l). destruct ph as [|rem|].
      * destruct R as [R1 R2]. split; [exact R1|]. exact (shows_trans s s3 s' [] (data l) SH3 R2).
      * destruct R as (R1 & R2 & used & -> & R3). split; [exact R1|]. split; [exact R2|]. exists (Interrupted term :: used). split; [reflexivity|]. exact (shows_trans s s3 s' [] (data used) SH3 R3).
      * exact (part_trans s s3 s' [] (data l) SH3 R).
  - assert (I3 : inv orig (set_done s)) by exact (inv_eq orig s (set_done s) eq_refl eq_refl eq_refl eq_refl I). destruct (IH _ I3) as (s' & ph & E & W & R). exists s', ph. split; [exact E|]. split; [exact W|]. destruct ph as [|rem|]; [exact R| |exact R].
    destruct R as (R1 & R2 & used & -> & R3). split; [exact R1|]. split; [exact R2|]. exists (Early :: used). split; [reflexivity|exact R3].
  - eexists _, _. split; [reflexivity|]. split; [apply I|]. apply part_no.
Qed.

(** ** Sessions in which nothing fails *)
Lemma exec_ses : forall l s rs s' e, exec s rs l = (s', e) -> ses s' = ses s.
Proof.
  induction l as [|a l IH]; intros s rs s' e E; [cbn [exec] in E; injection E as <- _; reflexivity|].
  apply exec_cons in E as [[_ ->] | [(_ & -> & _) | (rs' & x & E & X)]]; auto. rewrite (IH _ _ _ _ E). destruct X as [-> | (_ & t & ->)]; destruct a; reflexivity.
Qed.
Lemma stroke_fine dbg c s k rs : cfg_ok c -> Forall fine_result rs -> exists t' sn ls s', keystroke (escape c) (key_buf c) (ses s) k = Ok (t', sn, ls) /\ kind (ses s) k t' sn ls /\
  read_from_stdin dbg c s (Byte k) rs = Ok (s', true) /\ ses s' = t' /\ sent s' = sent s ++ sn.
Proof.
  intros CO F. destruct (keystroke_kind (escape c) (key_buf c) (ses s) k (proj1 (proj2 (proj2 CO)))) as (t' & sn & ls & E & K).
  destruct (key_acts_total dbg c (ses s) k t' sn ls CO K) as (l & EA & Q & SN). destruct (exec_fine l (set_ses s t') rs F) as (s' & EX & S).
  exists t', sn, ls, s'. split; [exact E|]. split; [exact K|]. cbn [read_from_stdin]. rewrite E. cbn [bind]. rewrite EA. cbn [bind]. rewrite EX. split; [reflexivity|]. split; [exact (exec_ses _ _ _ _ _ EX)|]. rewrite S, SN. reflexivity.
Qed.
Lemma write_fine s d rs : d <> SErr -> Forall fine_result rs -> exists s', write_to_stdout s d rs = (s', true) /\ ses s' = ses s /\ sent s' = sent s.
Proof.
  intros ND F. destruct d as [b| |]; [|eexists; split; [reflexivity|auto]|congruence].
  cbn [write_to_stdout]. set (l := AOut true b :: _). destruct (exec_fine l s rs F) as (s' & E & X). rewrite E. exists s'. split; [reflexivity|]. split; [exact (exec_ses _ _ _ _ _ E)|]. rewrite X. unfold l. destruct (log_ s); apply app_nil_r.
Qed.
Lemma loop_fine dbg c : cfg_ok c -> forall l s, Forall fine l -> exists s' ph u, loop dbg c s l = Ok (s', ph) /\ used l ph u /\
  (t_closed (ses s) = false -> exists t2 snt lc, type_keys (escape c) (key_buf c) (ses s) (keys_typed u) = Ok (t2, snt, lc) /\ (~ In LClose lc -> ses s' = t2 /\ sent s' = sent s ++ snt)).
Proof.
  intros CO. induction l as [|e l IH]; intros s F.
  { exists s, Waiting, []. split; [reflexivity|]. split; [reflexivity|]. intros _. eexists _, _, _. split; [reflexivity|]. intros _. rewrite app_nil_r. auto. }
  inversion F as [|? ? F1 F2]; subst.
  assert (ONE : forall s3 (d : bool), exists s' ph u, (if d then Ok (s3, Over l) else loop dbg c s3 l) = Ok (s', ph) /\ used (e :: l) ph (e :: u) /\
    (t_closed (ses s3) = false -> exists t2 snt lc, type_keys (escape c) (key_buf c) (ses s3) (keys_typed u) = Ok (t2, snt, lc) /\ (~ In LClose lc -> ses s' = t2 /\ sent s' = sent s3 ++ snt))).
  { intros s3 d. destruct d.
    - exists s3, (Over l), []. split; [reflexivity|]. split; [reflexivity|]. intros _. eexists _, _, _. split; [reflexivity|]. intros _. rewrite app_nil_r. auto.
    - destruct (IH s3 F2) as (s' & ph & u & E & U & R). exists s', ph, u. split; [exact E|]. split; [|exact R]. destruct ph; cbn [used] in *; [subst; reflexivity|subst; reflexivity|contradiction]. }
  destruct e as [k d late|term| |]; cbn [loop].
  - destruct F1 as [F1 F1'].
    assert (W : forall s1, exists s2, (match d with Some (d, rs) => write_to_stdout s1 d rs | None => (s1, true) end) = (s2, true) /\ ses s2 = ses s1 /\ sent s2 = sent s1).
    { intros s1. destruct d as [[d rs]|]; [apply write_fine; apply F1'|eauto]. }
    destruct k as [[[k| |] rs]|].
    + destruct F1 as [_ F1]. destruct (stroke_fine dbg c s k rs CO F1) as (t' & sn & ls & s1 & EK & K & ER & S1 & S2). rewrite ER. cbn [bind fst snd].
      destruct (W s1) as (s2 & -> & W1 & W2). cbv zeta. set (s3 := if late then set_done s2 else s2).
      assert (X3 : ses s3 = t' /\ sent s3 = sent s ++ sn) by (unfold s3; destruct late; cbn [set_done ses sent]; rewrite W1, W2, S1, S2; auto). destruct X3 as [X3 Y3].
      destruct (ONE s3 (done s3)) as (s' & ph & u & E & U & R). eexists s', ph, _. split; [exact E|]. split; [exact U|]. intros NC. cbn [keys_typed flat_map app type_keys]. rewrite EK. cbn [bind]. rewrite NC. cbn [andb].
      destruct (t_closed t') eqn:C1.
      * assert (LC : ls = [LClose]) by (unfold kind in K; destruct K as [(_ & _ & Q) | [(_ & _ & _ & Q) | [(_ & _ & _ & Q) | [(Q & _) | (_ & _ & _ & Q & _)]]]]; try congruence).
        assert (G : forall ks t, exists t2 snt lc, type_keys (escape c) (key_buf c) t ks = Ok (t2, snt, lc)).
        { clear -CO. induction ks as [|x ks IH]; intros t; [eexists _, _, _; reflexivity|]. cbn [type_keys]. destruct (keystroke_kind (escape c) (key_buf c) t x (proj1 (proj2 (proj2 CO)))) as (t1 & s1 & l1 & E & _). rewrite E. cbn [bind]. destruct (t_closed t && _); [eexists _, _, _; reflexivity|]. destruct (IH t1) as (t2 & s2 & l2 & ->). eexists _, _, _. reflexivity. }
        destruct (G (keys_typed u) t') as (t2 & snt & lc & Q). fold (keys_typed u). rewrite Q. cbn [bind]. eexists _, _, _. split; [reflexivity|]. intros NI. destruct NI. rewrite LC. left. reflexivity.
      * rewrite X3 in R. destruct (R C1) as (t2 & snt & lc & Q & Q2). fold (keys_typed u). rewrite Q. cbn [bind]. eexists _, _, _. split; [reflexivity|]. intros NI. destruct Q2 as [Q2 Q3]; [intros I; apply NI, in_or_app; auto|]. split; [exact Q2|]. rewrite Q3, Y3, app_assoc. reflexivity.
    + cbn [read_from_stdin bind fst snd]. destruct (W (set_done s)) as (s2 & -> & W1 & W2). cbv zeta. set (s3 := if late then set_done s2 else s2).
      assert (X3 : ses s3 = ses s /\ sent s3 = sent s) by (unfold s3; destruct late; cbn [set_done ses sent]; rewrite W1, W2; auto). destruct X3 as [X3 Y3].
      destruct (ONE s3 (done s3)) as (s' & ph & u & E & U & R). eexists s', ph, _. split; [exact E|]. split; [exact U|]. rewrite <- X3, <- Y3. exact R.
    + destruct F1 as [F1 _]. congruence.
    + cbn [bind fst snd]. destruct (W s) as (s2 & -> & W1 & W2). cbv zeta. set (s3 := if late then set_done s2 else s2).
      assert (X3 : ses s3 = ses s /\ sent s3 = sent s) by (unfold s3; destruct late; cbn [set_done ses sent]; auto). destruct X3 as [X3 Y3].
      destruct (ONE s3 (done s3)) as (s' & ph & u & E & U & R). eexists s', ph, _. split; [exact E|]. split; [exact U|]. rewrite <- X3, <- Y3. exact R.
  - cbv zeta. set (s3 := if term then set_done s else s). assert (X3 : ses s3 = ses s /\ sent s3 = sent s) by (unfold s3; destruct term; auto). destruct X3 as [X3 Y3].
    destruct (ONE s3 (done s3)) as (s' & ph & u & E & U & R). eexists s', ph, _. split; [exact E|]. split; [exact U|]. rewrite <- X3, <- Y3. exact R.
  - destruct (ONE (set_done s) false) as (s' & ph & u & E & U & R). eexists s', ph, _. split; [exact E|]. split; [exact U|]. exact R.
  - contradiction.
Qed.
Lemma loop_app dbg c m : forall l s s1, loop dbg c s l = Ok (s1, Waiting) -> loop dbg c s (l ++ m) = loop dbg c s1 m.
Proof.
  induction l as [|e l IH]; intros s s1 E; [cbn [loop] in E; injection E as <-; reflexivity|]. cbn [app]. destruct e as [k d late|term| |]; cbn [loop] in *.
  - destruct (match k with Some (k, rs) => read_from_stdin dbg c s k rs | None => Ok (s, true) end) as [[a b]|]; [|discriminate E]. cbn [bind fst snd] in *. destruct b; [|discriminate E].
    destruct (match d with Some (d, rs) => write_to_stdout a d rs | None => (a, true) end) as [s2 [|]]; [|discriminate E]. destruct (done _); [discriminate E|]. apply IH. exact E.
  - cbv zeta in *. destruct (done _); [discriminate E|]. apply IH. exact E.
  - apply IH. exact E.
  - discriminate E.
Qed.

(** ** Whole sessions *)
Definition ses0 (c : cfg) (t : tty) : tty := if single c then mkTty (t_mode t) (t_connect t) false (t_echo t) (t_quiet t) (t_reset t) (t_closed t) else t.
Definition opened (c : cfg) (s : st) : st :=
  let m := shown (List.length (line_buf c)) (status_text c (zs "opened")) in
  mkSt (get_tty_raw (now s)) (now s) (ses0 c (ses s)) (out s ++ [(false, m)]) (log_ s) (sent s) (done s) (stops s).
Lemma connect_ok dbg c s rs1 l rs2 : cfg_ok c -> connect_console dbg true true c s rs1 l rs2 =
  match exec (mkSt (now s) (now s) (ses0 c (ses s)) (out s) (log_ s) (sent s) (done s) (stops s)) rs1 [ARaw; AOut false (shown (List.length (line_buf c)) (status_text c (zs "opened")))] with
  | (s, All) =>
        do r <- loop dbg c s l;
        match r with
        | (s, Over rem) =>
            match exec s rs2 (AClose :: (if t_closed (ses s) then [] else [AOut false (shown (List.length (line_buf c)) (status_text c (zs "terminated by server")))]) ++ [ARestore]) with
            | (s, All) => Ok (s, Over rem)
            | (s, _) => Ok (s, Dead)
            end
        | r => Ok r
        end
    | (s, _) => Ok (s, Dead)
  end.
Proof.
  intros CO. destruct msg_chars as (_ & _ & _ & M4 & M5). unfold connect_console. cbn [negb orb]. cbv zeta. rewrite status_ok by assumption. cbn [bind]. fold (ses0 c (ses s)).
  destruct (exec _ rs1 _) as [s1 [| |]]; try reflexivity. destruct (loop dbg c s1 l) as [[s2 [|rem|]]|]; cbn [bind]; try reflexivity. destruct (t_closed (ses s2)); cbn [bind]; [reflexivity|]. rewrite status_ok by assumption. reflexivity.
Qed.
Lemma open_exec s m rs1 s1 e : exec s rs1 [ARaw; AOut false m] = (s1, e) -> stops s1 = stops s /\ saved s1 = saved s /\ ses s1 = ses s /\ done s1 = done s /\ log_ s1 = log_ s /\ sent s1 = sent s /\ from_server (out s1) = from_server (out s) /\
  (e = All -> now s1 = get_tty_raw (now s) /\ out s1 = out s ++ [(false, m)]).
Proof.
  intros E. apply exec_cons in E as [[-> ->] | [(_ & _ & ? & X) | (rs2 & x2 & E & [-> | [X _]])]]; try discriminate X; [do 7 (split; [reflexivity|]); discriminate|].
  apply exec_cons in E as [[-> ->] | [(_ & _ & ? & X) | (rs3 & x3 & E & [-> | [X _]])]]; try discriminate X; [do 7 (split; [reflexivity|]); discriminate|].
  cbn [exec] in E. injection E as <- <-. cbn [do_act set_now stops saved ses done log_ sent out now]. do 6 (split; [reflexivity|]). split; [rewrite from_app; cbn; apply app_nil_r|auto].
Qed.
Lemma close_exec s ms rs2 s1 e : Forall still ms -> Forall quiet ms -> exec s rs2 (AClose :: ms ++ [ARestore]) = (s1, e) -> stops s1 = stops s /\ saved s1 = saved s /\ ses s1 = ses s /\ done s1 = done s /\ log_ s1 = log_ s /\ from_server (out s1) = from_server (out s) /\ (e = All -> now s1 = saved s).
Proof.
  intros ST Q E. assert (Q2 : Forall quiet (AClose :: ms ++ [ARestore])) by (constructor; [exact I|]; rewrite Forall_app; split; [exact Q|repeat constructor]). destruct (exec_quiet _ _ _ _ _ E Q2) as (A & B & C & D & F).
  assert (G : stops s1 = stops s /\ (e = All -> now s1 = saved s)).
  { clear A B C D F Q Q2. apply exec_cons in E as [[-> ->] | [(-> & -> & _) | (rs & x & E & X)]]; [split; [reflexivity|discriminate]|split; [reflexivity|discriminate]|].
    assert (XX : x = s) by (destruct X as [-> | [X _]]; [reflexivity|discriminate X]). subst x. clear X.
    revert s rs E. induction ST as [|a ms Ha ST IH]; intros s rs E; cbn [app] in E.
    - apply exec_cons in E as [[-> ->] | [(-> & -> & _) | (rs' & x & E & [-> | [X _]])]]; try discriminate X; try (split; [reflexivity|discriminate]). cbn [exec] in E. injection E as <- <-. split; reflexivity.
    - apply exec_cons in E as [[-> ->] | [(-> & -> & _) | (rs' & x & E & [-> | [-> _]])]]; [split; [reflexivity|discriminate]|split; [reflexivity|discriminate]| |contradiction].
      apply IH in E. destruct E as [E1 E2]. rewrite E1. split; [destruct a; try contradiction; reflexivity|]. intros H. rewrite (E2 H). destruct a; try contradiction; reflexivity. }
  destruct G as [G1 G2]. auto 9.
Qed.
(** whole sessions, with any failures *)
Lemma session dbg c s rs1 l rs2 : cfg_ok c -> starts c s -> exists s' ph, connect_console dbg true true c s rs1 l rs2 = Ok (s', ph) /\ Forall (fun t => t = now s) (stops s') /\
  match ph with
  | Waiting => shows s s' (data l) /\ raw_mode (now s') /\ (stops s' = [] -> echoing (now s') = t_echo (ses s'))
  | Over rem => now s' = now s /\ exists u, l = u ++ rem /\ shows s s' (data u)
  | Dead => part s s' (data l)
  end.
Proof.
  intros CO (S1 & S2 & S3 & S4 & S5 & S6 & S7). rewrite connect_ok by assumption. cbv beta iota. set (s0 := mkSt _ _ _ _ _ _ _ _). set (m := shown _ _).
  destruct (exec s0 rs1 [ARaw; AOut false m]) as [s1 e] eqn:E. destruct (open_exec _ _ _ _ _ E) as (A & B & C & D & F & G & H & K). unfold s0 in *. cbn [stops saved ses done log_ sent out now] in *.
  destruct e.
  2,3: eexists _, _; split; [reflexivity|]; split; [rewrite A, S7; constructor|]; exists [], (data l), [], []; split; [reflexivity|]; split; [reflexivity|]; rewrite app_nil_r, logged_nil; auto.
  destruct (K eq_refl) as [K1 K2].
  assert (I1 : inv (now s) s1). { split; [split; [exact B|rewrite A, S7; constructor]|]. rewrite K1. split; [apply raw_ok|]. intros _. rewrite (proj2 (raw_ok _)), C. unfold ses0. destruct (single c); cbn [t_echo]; auto. }
  assert (SH : shows s s1 []) by (unfold shows; rewrite H, F, app_nil_r, logged_nil; auto).
  destruct (loop_inv dbg c (now s) CO l s1 I1) as (s2 & ph & EL & W & R). rewrite EL. cbn [bind]. destruct ph as [|rem|].
  - destruct R as [R1 R2]. eexists _, _. split; [reflexivity|]. split; [apply W|]. split; [exact (shows_trans s s1 s2 [] (data l) SH R2)|]. split; apply R1.
  - destruct R as (R1 & R2 & u & -> & R3). set (ms := if t_closed (ses s2) then [] else _).
    assert (ST : Forall still ms /\ Forall quiet ms) by (unfold ms; destruct (t_closed (ses s2)); split; repeat constructor).
    destruct (exec s2 rs2 (AClose :: ms ++ [ARestore])) as [s3 e3] eqn:E3. destruct (close_exec _ _ _ _ _ (proj1 ST) (proj2 ST) E3) as (A3 & B3 & C3 & D3 & F3 & G3 & H3).
    assert (SH3 : shows s s3 (data u)) by (destruct (shows_trans s s1 s2 [] (data u) SH R3) as [X Y]; split; [rewrite G3; exact X|rewrite F3; exact Y]).
    destruct e3; eexists _, _; (split; [reflexivity|]); (split; [rewrite A3; apply W|]).
    + split; [rewrite (H3 eq_refl); apply W|]. exists u. auto.
    + unfold data. rewrite flat_map_app. apply part_more. destruct SH3 as [X Y]. exists (data u), [], (data u), []. rewrite !app_nil_r. auto.
    + unfold data. rewrite flat_map_app. apply part_more. destruct SH3 as [X Y]. exists (data u), [], (data u), []. rewrite !app_nil_r. auto.
  - eexists _, _. split; [reflexivity|]. split; [apply W|]. exact (part_trans s s1 s2 [] (data l) SH R).
Qed.
Lemma session_fine dbg c s rs1 l rs2 : cfg_ok c -> starts c s -> Forall fine_result rs1 -> Forall fine_result rs2 -> Forall fine l ->
  exists s' ph u, connect_console dbg true true c s rs1 l rs2 = Ok (s', ph) /\ used l ph u /\
  exists t2 snt lc, type_keys (escape c) (key_buf c) (ses0 c (ses s)) (keys_typed u) = Ok (t2, snt, lc) /\ (~ In LClose lc -> sent s' = snt).
Proof.
  intros CO (S1 & S2 & S3 & S4 & S5 & S6 & S7) F1 F2 F3. rewrite connect_ok by assumption. cbv beta iota. set (s0 := mkSt _ _ _ _ _ _ _ _). set (m := shown _ _).
  destruct (exec_fine [ARaw; AOut false m] s0 rs1 F1) as (s1 & E & X). rewrite E. destruct (open_exec _ _ _ _ _ E) as (A & B & C & D & F & G & H & K). unfold s0 in *. cbn [stops saved ses done log_ sent out now] in *.
  destruct (loop_fine dbg c CO l s1 F3) as (s2 & ph & u & EL & U & R). rewrite EL. cbn [bind].
  assert (NC : t_closed (ses s1) = false) by (rewrite C; unfold ses0; destruct (single c); exact S2). destruct (R NC) as (t2 & snt & lc & T & Q). rewrite C in T.
  assert (Z0 : sent s1 = []) by (rewrite G; exact S6). rewrite Z0 in Q.
  destruct ph as [|rem|]; [| |contradiction].
  - exists s2, Waiting, u. split; [reflexivity|]. split; [exact U|]. exists t2, snt, lc. split; [exact T|]. intros N. exact (proj2 (Q N)).
  - set (ms := if t_closed (ses s2) then [] else _). destruct (exec_fine (AClose :: ms ++ [ARestore]) s2 rs2 F2) as (s3 & E3 & X3). rewrite E3. exists s3, (Over rem), u. split; [reflexivity|]. split; [exact U|]. exists t2, snt, lc. split; [exact T|]. intros N. rewrite X3, (proj2 (Q N)).
    unfold ms. destruct (t_closed (ses s2)); apply app_nil_r.
Qed.
Lemma session_app dbg c s rs1 l m rs2 rs2' s' : cfg_ok c -> connect_console dbg true true c s rs1 l rs2 = Ok (s', Waiting) ->
  connect_console dbg true true c s rs1 (l ++ m) rs2' =
    do r <- loop dbg c s' m;
    match r with
    | (s, Over rem) =>
        match exec s rs2' (AClose :: (if t_closed (ses s) then [] else [AOut false (shown (List.length (line_buf c)) (status_text c (zs "terminated by server")))]) ++ [ARestore]) with
        | (s, All) => Ok (s, Over rem)
        | (s, _) => Ok (s, Dead)
        end
    | r => Ok r
    end.
Proof.
  intros CO E. rewrite connect_ok in E |- * by assumption. set (s0 := mkSt _ _ _ _ _ _ _ _) in *. destruct (exec s0 rs1 _) as [s1 [| |]]; try discriminate E.
  destruct (loop dbg c s1 l) as [[s2 [|rem|]]|] eqn:EL; cbn [bind] in E; try discriminate E.
  - injection E as ->. rewrite (loop_app dbg c m l s1 s' EL). reflexivity.
  - destruct (exec s2 rs2 _) as [? [| |]]; discriminate E.
Qed.
