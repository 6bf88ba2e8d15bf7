(** Proofs for EscProps. *)
From Verif Require Import Base BaseProof EscModel EscSpec.
Local Open Scope Z_scope.

Ltac zbits b := destruct b as [|?p|?p];
  repeat match goal with
  | p : positive |- _ => try reflexivity; try congruence; destruct p
  end; try reflexivity; try congruence.

Lemma parse_data b t : b <> 255 -> parse (b :: t) = Data b :: parse t.
Proof. intros H. zbits b. Qed.
Lemma parse_esc_esc t : parse (255 :: 255 :: t) = Data 255 :: parse t.
Proof. reflexivity. Qed.
Lemma parse_esc c t : c <> 255 -> parse (255 :: c :: t) = Cmd c :: parse t.
Proof. intros H. zbits c. Qed.
Lemma dangling_data b t : b <> 255 -> dangling (b :: t) = dangling t.
Proof. intros H. zbits b. Qed.
Lemma dangling_esc c t : dangling (255 :: c :: t) = dangling t.
Proof. reflexivity. Qed.

(* peel one byte off positive cases deterministically *)
Lemma server_cmd_known c : server_cmd c = known c.
Proof.
  unfold server_cmd, ESC_BREAK, ESC_DEL, ESC_FORCE, ESC_JOIN, ESC_REPLAY, ESC_MONITOR,
    ESC_QUIET, ESC_RESET, ESC_SUSPEND.
  repeat match goal with
  | |- (if ?a =? ?b then _ else _) = _ =>
      destruct (Z.eqb_spec a b); [subst; reflexivity|]
  end.
  symmetry. zbits c.
Qed.


Lemma get_mid {A} (l1 : list A) c l2 : get (l1 ++ c :: l2) (length l1) = Ok c.
Proof. unfold get. rewrite nth_error_app2, Nat.sub_diag; auto. Qed.

Lemma put_mid {A} (l1 : list A) c x l2 : put (l1 ++ c :: l2) (length l1) x = Ok (l1 ++ x :: l2).
Proof.
  unfold put, blit. cbn [length].
  destruct (Nat.leb_spec (length l1 + 1) (length (l1 ++ c :: l2))).
  - rewrite firstn_app, Nat.sub_diag, firstn_all. cbn [firstn]. rewrite app_nil_r.
    rewrite skipn_app. replace (length l1 + 1 - length l1)%nat with 1%nat by lia.
    rewrite skipn_all2 by lia. reflexivity.
  - rewrite app_length in *; cbn [length] in *; lia.
Qed.

Lemma put_shift (out mid : list Z) c rest :
  exists mid', put (out ++ mid ++ c :: rest) (length out) c = Ok ((out ++ [c]) ++ mid' ++ rest) /\
               length mid' = length mid.
Proof.
  destruct mid as [|m mid].
  - exists []. cbn [app]. rewrite put_mid, <- app_assoc. auto.
  - exists (mid ++ [c]). cbn [app]. rewrite put_mid. rewrite <- !app_assoc. cbn [app].
    split; auto. rewrite app_length. cbn; lia.
Qed.

Lemma unstuff_loop_ok : forall rest out mid got,
  exists tl, unstuff_loop (length rest) (out ++ mid ++ rest) (length out + length mid)
    (length out) got =
  Ok (out ++ stream_data (pre got rest) ++ tl,
      (length out + length (stream_data (pre got rest)))%nat,
      dangling (pre got rest), stream_cmds (pre got rest)).
Proof.
  induction rest as [|c rest IH]; intros out mid got.
  - cbn [length unstuff_loop app]. exists mid. destruct got; cbn [pre]; cbn;
      rewrite app_nil_r, Nat.add_0_r; reflexivity.
  - cbn [length unstuff_loop].
    assert (G : get (out ++ mid ++ c :: rest) (length out + length mid) = Ok c).
    { rewrite app_assoc, <- app_length. apply get_mid. }
    rewrite G. cbn [bind]. unfold ESC_CHAR.
    assert (P : forall x, x = c -> exists mid', put (out ++ mid ++ c :: rest) (length out) x
               = Ok ((out ++ [c]) ++ mid' ++ rest) /\ length mid' = length mid).
    { intros x ->. apply put_shift. }
    assert (Q : exists tl, unstuff_loop (length rest) (out ++ mid ++ c :: rest)
        (S (length out + length mid)) (length out) false =
        Ok (out ++ stream_data rest ++ tl, (length out + length (stream_data rest))%nat,
            dangling rest, stream_cmds rest) ).
    { destruct (IH out (mid ++ [c]) false) as [tl E]. exists tl.
      rewrite <- app_assoc in E. cbn [app] in E. rewrite app_length in E. cbn [length] in E.
      replace (S (length out + length mid)) with (length out + (length mid + 1))%nat by lia.
      exact E. }
    assert (Q' : exists tl, unstuff_loop (length rest) (out ++ mid ++ c :: rest)
        (S (length out + length mid)) (length out) true =
        Ok (out ++ stream_data (255 :: rest) ++ tl,
            (length out + length (stream_data (255%Z :: rest)))%nat,
            dangling (255 :: rest), stream_cmds (255 :: rest)) ).
    { destruct (IH out (mid ++ [c]) true) as [tl E]. exists tl.
      rewrite <- app_assoc in E. cbn [app] in E. rewrite app_length in E. cbn [length] in E.
      replace (S (length out + length mid)) with (length out + (length mid + 1))%nat by lia.
      exact E. }
    assert (R : forall mid', length mid' = length mid ->
       exists tl, unstuff_loop (length rest) ((out ++ [c]) ++ mid' ++ rest)
        (S (length out + length mid)) (S (length out)) false =
        Ok (out ++ (c :: stream_data rest) ++ tl,
            (length out + length (c :: stream_data rest))%nat,
            dangling rest, stream_cmds rest)).
    { intros mid' L. destruct (IH (out ++ [c]) mid' false) as [tl E]. exists tl.
      rewrite app_length in E. cbn [length] in E.
      replace (S (length out + length mid)) with (length out + 1 + length mid')%nat by lia.
      replace (S (length out)) with (length out + 1)%nat by lia.
      rewrite E. cbn [pre length]. rewrite <- app_assoc. cbn [app].
      replace (length out + 1 + length (stream_data rest))%nat
        with (length out + S (length (stream_data rest)))%nat by lia.
      reflexivity. }
    destruct got; cbn [pre].
    + destruct (Z.eqb_spec c 255) as [->|N].
      * destruct (P 255 eq_refl) as (mid' & E & L). rewrite E. cbn [bind].
        destruct (R mid' L) as [tl E2]. exists tl. exact E2.
      * destruct Q as [tl E]. rewrite E. cbn [bind]. exists tl.
        unfold stream_data, stream_cmds. rewrite (parse_esc c rest N), dangling_esc.
        cbn [flat_map item_data item_cmd app]. rewrite server_cmd_known.
        destruct (known c); reflexivity.
    + destruct (Z.eqb_spec c 255) as [->|N].
      * exact Q'.
      * destruct (P c eq_refl) as (mid' & E & L). rewrite E. cbn [bind].
        destruct (R mid' L) as [tl E2]. exists tl. rewrite E2.
        unfold stream_data, stream_cmds. rewrite (parse_data c rest N), (dangling_data c rest N).
        reflexivity.
Qed.

Lemma pce_ok got src :
  process_client_escapes got src =
  Ok (stream_data (pre got src), dangling (pre got src), stream_cmds (pre got src)).
Proof.
  unfold process_client_escapes. destruct (unstuff_loop_ok src [] [] got) as [tl E].
  cbn [app length Nat.add] in E. rewrite E. cbn [bind].
  unfold slice. cbn [Nat.add skipn].
  rewrite app_length.
  destruct (Nat.leb_spec (length (stream_data (pre got src)))
     (length (stream_data (pre got src)) + length tl)); [|lia].
  cbn [bind]. rewrite firstn_app, Nat.sub_diag, firstn_all. cbn [firstn]. rewrite app_nil_r.
  reflexivity.
Qed.

Lemma parse_app : forall n s t, (length s <= n)%nat ->
  parse (s ++ t) = parse s ++ parse (pre (dangling s) t) /\
  dangling (s ++ t) = dangling (pre (dangling s) t).
Proof.
  induction n; intros s t L.
  - destruct s; [|cbn in L; lia]. cbn [dangling pre]. auto.
  - destruct s as [|b s]; [cbn [dangling pre]; auto|]. cbn [app].
    destruct (Z.eq_dec b 255) as [->|N].
    + destruct s as [|c s].
      * cbn [app]. auto.
      * cbn [app]. rewrite !dangling_esc. cbn [length] in L.
        destruct (IHn s t) as [A B]; [lia|].
        split; [|exact B].
        destruct (Z.eq_dec c 255) as [->|N].
        -- rewrite !parse_esc_esc. cbn [app]. rewrite A. reflexivity.
        -- rewrite !parse_esc by auto. cbn [app]. rewrite A. reflexivity.
    + rewrite !parse_data, !dangling_data by auto. cbn [length] in L.
      destruct (IHn s t) as [A B]; [lia|]. cbn [app]. rewrite A. auto.
Qed.

Lemma read_effects_ok got src : exists e,
  read_effects got src = Ok (dangling (pre got src), e) /\
  flat_map eff_data e = stream_data (pre got src) /\
  flat_map eff_cmd e = stream_cmds (pre got src).
Proof.
  unfold read_effects. rewrite pce_ok. cbn [bind].
  eexists. split; [reflexivity|].
  rewrite !flat_map_app.
  assert (A : forall cs, flat_map eff_data (map ECmd cs) = []) by (induction cs; auto).
  assert (B : forall cs, flat_map eff_cmd (map ECmd cs) = cs)
    by (induction cs; cbn; congruence).
  rewrite A, B.
  destruct (stream_data (pre got src)); cbn; rewrite !app_nil_r; auto.
Qed.

Lemma read_all_ok : forall chunks got, exists e,
  read_all got chunks = Ok (dangling (pre got (concat chunks)), e) /\
  flat_map eff_data e = stream_data (pre got (concat chunks)) /\
  flat_map eff_cmd e = stream_cmds (pre got (concat chunks)).
Proof.
  induction chunks as [|c cs IH]; intros got; cbn [read_all concat].
  - exists []. destruct got; cbn; auto.
  - destruct (read_effects_ok got c) as (e1 & E1 & D1 & C1). rewrite E1. cbn [bind fst snd].
    destruct (IH (dangling (pre got c))) as (e2 & E2 & D2 & C2). rewrite E2. cbn [bind fst snd].
    assert (X : pre got (c ++ concat cs) = pre got c ++ concat cs) by (destruct got; reflexivity).
    rewrite X.
    destruct (parse_app (length (pre got c)) (pre got c) (concat cs)) as [A B]; [lia|].
    exists (e1 ++ e2). rewrite B. split; [reflexivity|].
    unfold stream_data, stream_cmds. rewrite A, !flat_map_app, D1, C1, D2, C2. auto.
Qed.

Theorem unstuff_spec chunks : exists e,
  read_all false chunks = Ok (dangling (concat chunks), e) /\
  flat_map eff_data e = stream_data (concat chunks) /\
  flat_map eff_cmd e = stream_cmds (concat chunks).
Proof. exact (read_all_ok chunks false). Qed.

(** A stream in which no command follows data within one read keeps the order. *)
Theorem unstuff_order_one : forall chunks,
  Forall (fun c => length c <= 1)%nat chunks ->
  exists e, read_all false chunks = Ok (dangling (concat chunks), e) /\
            e = flat_map item_effect (parse (concat chunks)).
Proof.
  assert (G : forall chunks got, Forall (fun c => length c <= 1)%nat chunks ->
    read_all got chunks = Ok (dangling (pre got (concat chunks)),
       flat_map item_effect (parse (pre got (concat chunks))))).
  { induction chunks as [|c cs IH]; intros got F.
    - destruct got; reflexivity.
    - inversion F as [|? ? F1 F2]; subst. cbn [read_all concat].
      unfold read_effects. rewrite pce_ok. cbn [bind fst snd].
      rewrite IH by auto. cbn [bind fst snd].
      destruct c as [|b [|]]; [|  |cbn in F1; lia].
      + cbn [app]. destruct got; cbn [pre dangling]; reflexivity.
      + cbn [app]. destruct got; cbn [pre].
        * rewrite dangling_esc. cbn [dangling pre].
          destruct (Z.eq_dec b 255) as [->|N].
          -- reflexivity.
          -- unfold stream_data, stream_cmds. rewrite !parse_esc by auto.
             cbn [parse flat_map item_data item_cmd item_effect app].
             destruct (known b); reflexivity.
        * destruct (Z.eq_dec b 255) as [->|N].
          -- reflexivity.
          -- unfold stream_data, stream_cmds. rewrite !parse_data, !dangling_data by auto.
             cbn [parse dangling pre flat_map item_data item_cmd item_effect app map].
             reflexivity. }
  intros chunks F. eexists. split; [apply (G chunks false F)|reflexivity].
Qed.

(** ** Client side *)

Definition stuff1 (b : Z) : list Z := if b =? 255 then [255; 255] else [b].

Lemma parse_stuff l t : parse (flat_map stuff1 l ++ t) = map Data l ++ parse t.
Proof.
  induction l as [|b l IH]; [reflexivity|]. cbn [flat_map map app].
  unfold stuff1 at 1. destruct (Z.eqb_spec b 255) as [->|N].
  - cbn [app]. rewrite parse_esc_esc, IH. reflexivity.
  - cbn [app]. rewrite parse_data by auto. rewrite IH. reflexivity.
Qed.

Lemma send_char_ok t p c junk : length junk = 4%nat -> (length p <= 1)%nat ->
  send_char t p c junk =
  Ok (with_mode t (if (c =? 13) || (c =? 10) then MEol else MChr),
      (if t_connect t then flat_map stuff1 (p ++ [c]) else []), []).
Proof.
  intros L P.
  destruct junk as [|j0 [|j1 [|j2 [|j3 [|]]]]]; try (cbn in L; lia).
  unfold send_char. destruct p as [|e [|]]; [| |cbn in P; lia].
  - cbn [app length Nat.add]. unfold blit; cbn [length Nat.add Nat.leb firstn skipn app bind].
    destruct (t_connect t); [|reflexivity].
    cbn [stuff_loop]. unfold get; cbn [nth_error bind]. unfold ESC_CHAR, stuff1.
    destruct (Z.eqb_spec c 255) as [->|N]; cbn; [reflexivity|].
    destruct (Z.eqb_spec c 255) as [->|_]; [congruence|reflexivity].
  - cbn [app length Nat.add]. unfold blit; cbn [length Nat.add Nat.leb firstn skipn app bind].
    destruct (t_connect t); [|reflexivity].
    cbn [stuff_loop]. unfold get; cbn [nth_error bind]. unfold ESC_CHAR, stuff1.
    destruct (Z.eqb_spec c 255) as [->|N]; cbn;
    destruct (Z.eqb_spec e 255) as [->|N2]; cbn;
    repeat match goal with
    | |- context [?a =? ?b] => destruct (Z.eqb_spec a b); try congruence
    end; reflexivity.
Qed.

Definition sess (t : tty) : session := mkS (t_connect t) (t_bcast t) (t_reset t).

(** Outcome of performing the escaped key [c] outside of [send_char]. *)
Lemma escaped_ok esc junk t c : length junk = 4%nat -> 0 <= esc < 128 ->
  exists t' s l,
    (match perform_esc (with_mode t MEol) c with
     | Some r => Ok r
     | None => send_char (with_mode t MEol) (if c =? esc then [] else [uchar esc]) c junk
     end) = Ok (t', s, l) /\
    t_mode t' <> MEsc /\
    sess t' = fst (key_meaning esc (sess t) (Escaped c)) /\
    (forall r, parse (s ++ r) = snd (key_meaning esc (sess t) (Escaped c)) ++ parse r) /\
    l = key_local (sess t) (Escaped c) /\
    t_closed t' = t_closed t || (c =? 46).
Proof.
  intros J E.
  unfold perform_esc, key_meaning.
  assert (X : uchar esc = esc) by (unfold uchar; apply Z.mod_small; lia).
  rewrite X.
  unfold ESC_BREAK, ESC_CLOSE, ESC_DEL, ESC_ECHO, ESC_FORCE, ESC_HELP, ESC_INFO, ESC_JOIN,
    ESC_REPLAY, ESC_MONITOR, ESC_QUIET, ESC_RESET, ESC_SUSPEND.
  assert (NE : MEol <> MEsc) by discriminate.
  repeat match goal with
  | |- context [if ?a =? ?b then Some _ else _] =>
      destruct (Z.eqb_spec a b);
      [subst; cbn; destruct t as [m [|] [|] ec qu [|] cl]; cbn; do 3 eexists;
         (split; [reflexivity|]); cbn; repeat split; auto using orb_false_r;
         try (rewrite orb_false_r; reflexivity); try (rewrite orb_true_r; reflexivity);
         intros; try reflexivity; fail|]
  end.
  assert (K : is_command c = false).
  { unfold is_command, letters. cbn [existsb].
    repeat match goal with
    | |- context [c =? ?b] => destruct (Z.eqb_spec c b); [congruence|]
    end. reflexivity. }
  rewrite K. cbn [negb].
  rewrite send_char_ok by (auto; destruct (c =? esc); cbn; lia).
  do 3 eexists. split; [reflexivity|].
  split. { cbn. destruct (_ || _); discriminate. }
  split. { destruct t; reflexivity. }
  split.
  { intros r. destruct t as [m con bc ec qu re cl]; cbn [with_mode t_connect sess s_write t_bcast t_reset].
    destruct con.
    - rewrite parse_stuff. cbn [snd]. destruct (Z.eqb_spec c esc) as [->|N]; reflexivity.
    - cbn. destruct (c =? esc); reflexivity. }
  split.
  { clear - n n0 n1 n2 n3 n4 n5 n6 n7 n8 n9 n10 n11. unfold key_local. zbits c. }
  destruct t; cbn. destruct (Z.eqb_spec c 46); [congruence|]. rewrite orb_false_r. reflexivity.
Qed.

Lemma key_local_plain s c : key_local s (Plain c) = [].
Proof. reflexivity. Qed.

Lemma keystroke_plain esc junk t c : length junk = 4%nat -> t_mode t <> MEsc -> c <> esc ->
  exists t' s,
    keystroke esc junk t c = Ok (t', s, []) /\ t_mode t' <> MEsc /\
    sess t' = sess t /\ t_closed t' = t_closed t /\
    (forall r, parse (s ++ r) = snd (key_meaning esc (sess t) (Plain c)) ++ parse r).
Proof.
  intros J M N.
  assert (X : keystroke esc junk t c = send_char t [] c junk).
  { unfold keystroke. destruct (Z.eqb_spec c esc); [congruence|]. destruct (t_mode t); congruence. }
  rewrite X. rewrite send_char_ok by (auto; cbn; lia).
  do 2 eexists. split; [reflexivity|].
  split. { cbn. destruct (_ || _); discriminate. }
  split; [destruct t; reflexivity|]. split; [destruct t; reflexivity|].
  intros r. cbn [key_meaning snd]. destruct t as [m con bc ec qu re cl].
  cbn [t_connect sess s_write]. destruct con; [|reflexivity].
  rewrite parse_stuff. reflexivity.
Qed.

Lemma keystroke_intro esc junk t : t_mode t <> MEsc ->
  keystroke esc junk t esc = Ok (with_mode t MEsc, [], []).
Proof.
  intros M. unfold keystroke. rewrite Z.eqb_refl. destruct (t_mode t); congruence.
Qed.

Lemma until_close_cons k ks : k <> Escaped 46 -> until_close (k :: ks) = k :: until_close ks.
Proof.
  intros H. destruct k as [c|c]; [reflexivity|].
  assert (c <> 46) by congruence. zbits c.
Qed.

Lemma empty_length (s : list Z) : (0 <? length s)%nat = false -> s = [].
Proof. destruct s; cbn; congruence. Qed.

(** Once closed, nothing more is written. *)
Lemma closed_silent esc junk : length junk = 4%nat -> 0 <= esc < 128 ->
  forall keys t, t_closed t = true ->
  exists t' l, type_keys esc junk t keys = Ok (t', [], l).
Proof.
  intros J E. induction keys as [|c ks IH]; intros t C; cbn [type_keys].
  - eauto.
  - assert (K : exists t1 s1 l1, keystroke esc junk t c = Ok (t1, s1, l1) /\ t_closed t1 = true).
    { destruct (t_mode t) eqn:M.
      1,2: destruct (Z.eq_dec c esc) as [->|N];
        [rewrite keystroke_intro by congruence; do 3 eexists; split; [reflexivity|destruct t; exact C]
        |destruct (keystroke_plain esc junk t c J) as (t1 & s1 & X & _ & _ & Y & _);
          [congruence|auto|]; do 3 eexists; split; [exact X|congruence]].
      destruct (escaped_ok esc junk t c J E) as (t1 & s1 & l1 & X & _ & _ & _ & _ & Y).
      unfold keystroke. rewrite M. cbn zeta. rewrite X. do 3 eexists; split; [reflexivity|].
      rewrite Y, C. reflexivity. }
    destruct K as (t1 & s1 & l1 & K & C1). rewrite K. cbn [bind].
    rewrite C. cbn [andb].
    destruct (0 <? length s1)%nat eqn:Q.
    + eauto.
    + destruct (IH t1 C1) as (t2 & l2 & X). rewrite X. cbn [bind].
      apply empty_length in Q. subst s1. cbn [app]. eauto.
Qed.

Lemma client_ok esc junk : length junk = 4%nat -> 0 <= esc < 128 ->
  forall n keys t, (length keys <= n)%nat -> t_mode t <> MEsc -> t_closed t = false ->
  exists t' s l rest, type_keys esc junk t keys = Ok (t', s, l) /\
    parse s = keys_meaning esc (sess t) (until_close (keys_of esc keys)) /\
    l = keys_local esc (sess t) (until_close (keys_of esc keys)) ++ rest /\
    (~ In (Escaped 46) (keys_of esc keys) -> rest = []) /\
    dangling s = false.
Proof.
  intros J E.
  assert (DD : forall s i, (forall r, parse (s ++ r) = i ++ parse r) -> dangling s = false).
  { intros s i H. destruct (dangling s) eqn:D; [|reflexivity]. exfalso.
    pose proof (H [65; 65]) as H1. pose proof (H [65]) as H2.
    pose proof (H []) as H0. rewrite app_nil_r in H0. cbn [parse] in H0. rewrite app_nil_r in H0.
    destruct (parse_app (length s) s [65]) as [A _]; [lia|].
    rewrite D in A. cbn [pre] in A. rewrite A in H2.
    rewrite H0 in H2. cbn in H2. apply app_inv_head in H2. discriminate. }
  assert (CC : forall s1 s2, dangling s1 = false -> dangling s2 = false -> dangling (s1 ++ s2) = false).
  { intros s1 s2 A B. destruct (parse_app (length s1) s1 s2) as [_ X]; [lia|].
    rewrite X, A. exact B. }
  induction n; intros keys t L M C.
  - destruct keys; [|cbn in L; lia].
    exists t, [], [], []. cbn. repeat split; auto.
  - destruct keys as [|c ks].
    { exists t, [], [], []. cbn. repeat split; auto. }
    cbn [length] in L. cbn [type_keys keys_of].
    destruct (Z.eqb_spec c esc) as [->|N].
    + rewrite keystroke_intro by auto. cbn [bind]. rewrite C. cbn [andb].
      destruct ks as [|d ks].
      { cbn [type_keys bind]. exists (with_mode t MEsc), [], [], []. cbn. repeat split; auto. }
      cbn [type_keys].
      destruct (escaped_ok esc junk t d J E) as (t1 & s1 & l1 & X & M1 & S1 & P1 & L1 & C1).
      assert (KS : keystroke esc junk (with_mode t MEsc) d = Ok (t1, s1, l1)).
      { unfold keystroke. cbn [with_mode t_mode]. rewrite <- X. destruct t; reflexivity. }
      rewrite KS. cbn [bind].
      replace (t_closed (with_mode t MEsc)) with false by (destruct t; auto). cbn [andb].
      rewrite C in C1. cbn [orb] in C1.
      cbn [length] in L.
      destruct (Z.eqb_spec d 46) as [->|ND].
      * destruct (closed_silent esc junk J E ks t1 C1) as (t2 & l2 & X2). rewrite X2. cbn [bind app].
        cbn [until_close]. do 4 eexists. split; [reflexivity|].
        split.
        { rewrite P1. cbn [keys_meaning]. destruct (key_meaning esc (sess t) (Escaped 46)); reflexivity. }
        split.
        { cbn [keys_local]. rewrite L1. cbn. reflexivity. }
        split. { intros H. exfalso. apply H. left. reflexivity. }
        rewrite app_nil_r. eapply DD; eauto.
      * destruct (IHn ks t1) as (t2 & s2 & l2 & r2 & X2 & P2 & L2 & R2 & D2); [lia|auto|auto|].
        rewrite X2. cbn [bind app]. rewrite until_close_cons by congruence.
        do 4 eexists. split; [reflexivity|].
        split. { rewrite P1. cbn [keys_meaning]. rewrite P2, S1.
          destruct (key_meaning esc (sess t) (Escaped d)); reflexivity. }
        split. { cbn [keys_local]. rewrite L2, L1, S1, app_assoc. reflexivity. }
        split. { intros H. apply R2. intro. apply H. right. auto. }
        apply CC; auto. eapply DD; eauto.
    + destruct (keystroke_plain esc junk t c J M N) as (t1 & s1 & X & M1 & S1 & C1 & P1).
      rewrite X. cbn [bind]. rewrite C. cbn [andb].
      destruct (IHn ks t1) as (t2 & s2 & l2 & r2 & X2 & P2 & L2 & R2 & D2); [lia|auto|congruence|].
      rewrite X2. cbn [bind app]. rewrite until_close_cons by congruence.
      do 4 eexists. split; [reflexivity|].
      split. { rewrite P1. cbn [keys_meaning]. rewrite P2, S1.
          cbn [key_meaning snd]. reflexivity. }
      split. { cbn [keys_local key_local]. cbn [key_meaning fst app]. rewrite L2, S1. reflexivity. }
      split. { intros H. apply R2. intro. apply H. right. auto. }
      apply CC; auto. eapply DD; eauto.
Qed.

Theorem keyboard_spec : forall esc junk write bcast reset echo quiet keys,
  length junk = 4%nat -> 0 <= esc < 128 ->
  exists t' s l, type_keys (signed_char esc) junk (start write bcast reset echo quiet) keys
                 = Ok (t', s, l) /\
    parse s = keys_meaning esc (mkS write bcast reset) (until_close (keys_of esc keys)) /\
    dangling s = false /\
    exists rest, l = keys_local esc (mkS write bcast reset) (until_close (keys_of esc keys)) ++ rest
      /\ (~ In (Escaped 46) (keys_of esc keys) -> rest = []).
Proof.
  intros. unfold signed_char. destruct (Z.ltb_spec esc 128); [|lia].
  destruct (client_ok esc junk H H0 (length keys) keys (start write bcast reset echo quiet))
    as (t' & s & l & r & A & B & C & D & F); auto; try discriminate.
  exists t', s, l. repeat split; auto. exists r. auto.
Qed.

(** With an escape byte above 127 no key is ever recognised as the escape. *)
Theorem high_escape_ignored : forall esc junk write bcast reset echo quiet keys,
  length junk = 4%nat -> 128 <= esc < 256 -> bytes_ok keys ->
  exists t' s, type_keys (signed_char esc) junk (start write bcast reset echo quiet) keys
                 = Ok (t', s, []) /\
    parse s = (if write then map Data keys else []).
Proof.
  intros esc junk write bcast reset echo quiet keys J E B.
  unfold signed_char. destruct (Z.ltb_spec esc 128); [lia|].
  assert (G : forall keys t, bytes_ok keys -> t_mode t <> MEsc -> t_closed t = false ->
    exists t' s, type_keys (esc - 256) junk t keys = Ok (t', s, []) /\
      parse s = (if t_connect t then map Data keys else [])).
  { induction keys0 as [|c ks IH]; intros t BB M C.
    - exists t, []. split; [reflexivity|]. destruct (t_connect t); reflexivity.
    - inversion BB as [|? ? B1 B2]; subst. unfold byte_ok in B1.
      destruct (keystroke_plain (esc - 256) junk t c J M) as (t1 & s1 & X & M1 & S1 & C1 & P1); [lia|].
      cbn [type_keys]. rewrite X. cbn [bind]. rewrite C. cbn [andb].
      destruct (IH t1 B2 M1) as (t2 & s2 & X2 & P2); [congruence|]. rewrite X2. cbn [bind app].
      exists t2, (s1 ++ s2). split; [reflexivity|]. rewrite P1, P2.
      assert (T : t_connect t1 = t_connect t) by (injection S1; auto). rewrite T.
      cbn [key_meaning snd sess s_write]. destruct (t_connect t); reflexivity. }
  destruct (G keys (start write bcast reset echo quiet) B) as (t' & s & X & P);
    [discriminate|reflexivity|]. eauto.
Qed.

(** ** Local echo *)
Lemma echo_safe junk e c : length junk = 4%nat -> 32 <= c < 127 ->
  exists out, locally_echo_esc junk e c = Ok out /\ (length out <= 3)%nat.
Proof.
  intros J C.
  destruct junk as [|j0 [|j1 [|j2 [|j3 [|]]]]]; try (cbn in J; lia).
  unfold locally_echo_esc, write_esc_char.
  assert (Y : c mod 128 = c) by (apply Z.mod_small; lia). rewrite Y.
  destruct (Z.ltb_spec c 32); [lia|]. destruct (Z.eqb_spec c 127); [lia|].
  destruct (e mod 128 <? 32); [|destruct (e mod 128 =? 127)];
    cbn; eexists; (split; [reflexivity|cbn; lia]).
Qed.
