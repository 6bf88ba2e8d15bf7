(** The invariant of the tpoll transition system. *)
From Verif Require Import Base BaseProof TpollModel TpollSpec TpollProof.
From Coq Require Import Sorted.
Open Scope Z_scope.
Set Implicit Arguments.

Definition ent_ok (es : list event) (i : nat) (e : pollfd) : Prop :=
  p_events e = interest es (Z.of_nat i) /\
  (p_fd e = -1 /\ interest es (Z.of_nat i) = 0 \/
   p_fd e = Z.of_nat i /\ interest es (Z.of_nat i) <> 0) /\
  (undisturbed es = true -> p_revents e = ready es (Z.of_nat i)).

Record fds_ok (n0 pipe : nat) (tp : tpoll) (es : list event) : Prop := {
  f_pipe : tp_pipe tp = pipe;
  f_len : length (tp_arr tp) = tp_alloc tp;
  f_n0 : (n0 <= tp_alloc tp)%nat;
  f_pa : (pipe < tp_alloc tp)%nat;
  f_pe : exists r, nth_error (tp_arr tp) pipe = Some (mkPfd (Z.of_nat pipe) POLLIN r);
  f_ent : forall i e, nth_error (tp_arr tp) i = Some e -> i <> pipe -> ent_ok es i e;
  f_out : forall fd, fd < 0 \/ Z.of_nat (tp_alloc tp) <= fd \/ fd = Z.of_nat pipe ->
            interest es fd = 0;
  f_max : Z.of_nat pipe <= tp_max tp < Z.of_nat (tp_alloc tp);
  f_above : forall i e, nth_error (tp_arr tp) i = Some e -> tp_max tp < Z.of_nat i ->
            p_fd e = -1;
  f_used : tp_used tp = count (tp_arr tp) - 1 }.

Record tm_ok (tp : tpoll) (es : list event) : Prop := {
  m_holds : holds (tp_timers tp) (pending es);
  m_nodup : NoDup (map d_id (pending es));
  m_ids : Forall (fun p => 0 < d_id p < tp_next tp) (pending es);
  m_next : 1 <= tp_next tp }.

Definition sig_ok (tp : tpoll) : Prop := tp_bytes tp = if tp_signaled tp then 1%nat else 0%nat.

Lemma send_spec tp : sig_ok tp ->
  exists b s, signal_send tp = set_signal tp b s /\
    b = (if s then 1%nat else 0%nat) /\ (tp_bytes tp <= b)%nat /\
    (tp_blocked tp = true -> (0 < b)%nat).
Proof.
  unfold sig_ok, signal_send. intros H.
  destruct (tp_signaled tp) eqn:Sg; cbn [orb].
  - exists (tp_bytes tp), true. rewrite H. split; [|split; [reflexivity|lia]].
    rewrite <- H, <- Sg. now destruct tp.
  - destruct (tp_blocked tp) eqn:B; cbn [negb].
    + exists (S (tp_bytes tp)), true. split; [reflexivity|]. lia.
    + exists (tp_bytes tp), false. split; [rewrite <- Sg; now destruct tp|].
      split; [exact H|]. split; [lia|discriminate].
Qed.

Lemma sig_set tp b (s : bool) : b = (if s then 1%nat else 0%nat) -> sig_ok (set_signal tp b s).
Proof. intros H. exact H. Qed.

Lemma fds_signal n0 pipe tp es b s : fds_ok n0 pipe tp es -> fds_ok n0 pipe (set_signal tp b s) es.
Proof. intros []. now constructor. Qed.
Lemma tm_signal tp es b s : tm_ok tp es -> tm_ok (set_signal tp b s) es.
Proof. intros []. now constructor. Qed.

Lemma fds_timers n0 pipe tp es l n : fds_ok n0 pipe tp es -> fds_ok n0 pipe (set_timers tp l n) es.
Proof. intros []. now constructor. Qed.

Definition not_polled (e : event) : Prop := match e with EPolled _ => False | _ => True end.

Lemma undisturbed_le es x : undisturbed (es ++ [x]) = true -> undisturbed es = true.
Proof. rewrite undisturbed_snoc. intros H. now apply andb_prop in H. Qed.

Lemma ready_keep es x fd : not_polled x -> interest (es ++ [x]) fd = interest es fd ->
  ready (es ++ [x]) fd = ready es fd.
Proof.
  intros N E. rewrite ready_snoc, <- interest_snoc, E.
  destruct (Z.eqb_spec (interest es fd) 0) as [Z0|Z0].
  - now rewrite ready_0.
  - destruct x; cbn in N; tauto.
Qed.

Lemma ent_keep es x i e : not_polled x ->
  interest (es ++ [x]) (Z.of_nat i) = interest es (Z.of_nat i) ->
  ent_ok es i e -> ent_ok (es ++ [x]) i e.
Proof.
  intros N E (A & B & C). unfold ent_ok. rewrite E. split; [exact A|]. split; [exact B|].
  intros U. rewrite ready_keep by auto. apply C. now apply undisturbed_le in U.
Qed.

Lemma fds_keep n0 pipe tp es x : not_polled x ->
  (forall fd, interest (es ++ [x]) fd = interest es fd) ->
  fds_ok n0 pipe tp es -> fds_ok n0 pipe tp (es ++ [x]).
Proof.
  intros N E []. constructor; auto.
  - intros. apply ent_keep; auto.
  - intros. rewrite E. auto.
Qed.

Lemma tm_keep tp es x : pending (es ++ [x]) = pending es -> tm_ok tp es -> tm_ok tp (es ++ [x]).
Proof. intros E []. constructor; rewrite ?E; auto. Qed.

(** What a call by any thread may do to the object, as far as the polling thread
    is concerned. *)
Record evolves (pipe : nat) (tp tp' : tpoll) (es : list event) (x : event) : Prop := {
  e_blk : tp_blocked tp' = tp_blocked tp;
  e_len : (length (tp_arr tp) <= length (tp_arr tp'))%nat;
  e_real : tp_gen tp' = tp_gen tp /\ tp_realloced tp' = tp_realloced tp \/
           tp_realloced tp' = true;
  e_wake : (tp_blocked tp = true -> (0 < tp_bytes tp')%nat) \/
           hd_error (tp_timers tp') = hd_error (tp_timers tp) /\
           (forall fd, interest (es ++ [x]) fd = interest es fd);
  e_mono : (tp_bytes tp <= tp_bytes tp')%nat;
  e_pipe : nth_error (tp_arr tp') pipe = nth_error (tp_arr tp) pipe \/
           withdraws x = true /\
           nth_error (tp_arr tp') pipe = Some (mkPfd (Z.of_nat pipe) POLLIN 0);
  e_live : withdraws x = false -> forall i e, nth_error (tp_arr tp) i = Some e ->
           p_fd e <> -1 -> exists e', nth_error (tp_arr tp') i = Some e' /\ p_fd e' <> -1 }.

Lemma evolves_same pipe tp es x : (forall fd, interest (es ++ [x]) fd = interest es fd) ->
  evolves pipe tp tp es x.
Proof. intros H. constructor; auto. intros; eauto. Qed.

Definition good (n0 pipe : nat) (tp : tpoll) (es : list event) : Prop :=
  fds_ok n0 pipe tp es /\ tm_ok tp es /\ sig_ok tp.

Definition stays (n0 pipe : nat) (tp : tpoll) (es : list event) (tp' : tpoll) (x : event) : Prop :=
  good n0 pipe tp' (es ++ [x]) /\ evolves pipe tp tp' es x.

Lemma interest_upd_same es fd v : interest es fd = v ->
  forall x, upd (interest es) fd v x = interest es x.
Proof. intros <- x. unfold upd. destruct (Z.eqb_spec x fd); congruence. Qed.

Lemma stays_same n0 pipe tp es x : not_polled x ->
  (forall fd, interest (es ++ [x]) fd = interest es fd) -> pending (es ++ [x]) = pending es ->
  good n0 pipe tp es -> stays n0 pipe tp es tp x.
Proof.
  intros N I P (F & T & S). split; [split; [|split]|].
  - now apply fds_keep.
  - now apply tm_keep.
  - exact S.
  - now apply evolves_same.
Qed.

(** an entry of the table changes, and the polling thread is told *)
Lemma stays_put n0 pipe tp es x a k new used m b (s : bool) :
  good n0 pipe tp es -> not_polled x -> pending (es ++ [x]) = pending es ->
  put (tp_arr tp) k new = Ok a -> k <> pipe ->
  (forall fd, fd <> Z.of_nat k -> interest (es ++ [x]) fd = interest es fd) ->
  ent_ok (es ++ [x]) k new ->
  used = tp_used tp - one (p_fd (nth k (tp_arr tp) free_pfd) >? -1) + one (inuse new) ->
  (Z.of_nat pipe <= m < Z.of_nat (tp_alloc tp)) ->
  (forall i e, nth_error a i = Some e -> m < Z.of_nat i -> p_fd e = -1) ->
  (withdraws x = false -> p_fd new <> -1) ->
  b = (if s then 1%nat else 0%nat) -> (tp_bytes tp <= b)%nat ->
  (tp_blocked tp = true -> (0 < b)%nat) ->
  stays n0 pipe tp es (set_signal (set_fds tp a used m) b s) x.
Proof.
  intros (F & T & S) N P Hp Hk HI HE HU HM HA HL Hb Hb1 Hb2.
  destruct (nth_put _ _ _ Hp) as (K & L & G).
  destruct F as [Fp Fl Fn Fpa Fpe Fe Fo Fm Fa Fu].
  split; [split; [|split]|].
  - constructor; cbn; auto.
    + congruence.
    + destruct Fpe as (r & R). exists r. rewrite G.
      destruct (Nat.eqb_spec pipe k); [congruence|exact R].
    + intros i e He Hi. rewrite G in He. destruct (Nat.eqb_spec i k) as [->|Ni].
      * injection He as <-. exact HE.
      * apply ent_keep; auto. apply HI. lia.
    + intros fd Hfd. rewrite HI; [auto|]. lia.
    + destruct (nth_error (tp_arr tp) k) as [y|] eqn:Ey.
      2: { apply nth_error_None in Ey. lia. }
      rewrite (count_put _ _ _ Hp Ey). rewrite HU, Fu.
      rewrite (nth_error_nth _ _ free_pfd Ey). unfold inuse.
      rewrite Z.gtb_ltb. lia.
  - apply tm_keep; [exact P|]. destruct T. now constructor.
  - exact Hb.
  - constructor; cbn; auto.
    + lia.
    + left. rewrite G. destruct (Nat.eqb_spec pipe k); [congruence|reflexivity].
    + intros W i e He Hne. rewrite G. destruct (Nat.eqb_spec i k) as [->|Ni]; eauto.
Qed.

Lemma lor_0 a b : Z.lor a b = 0 -> b = 0.
Proof. intros H. now apply Z.lor_eq_0_iff in H. Qed.

(** tpoll_clear *)
Lemma clear_stays n0 pipe tp es fd ev tp' rc : good n0 pipe tp es -> fd <> Z.of_nat pipe ->
  tpoll_clear tp fd ev = Ok (tp', rc) ->
  stays n0 pipe tp es tp' (ECall (CClear fd ev) rc).
Proof.
  intros Gd Hp. pose proof Gd as (F & T & S). unfold tpoll_clear.
  assert (Pn : forall rc, pending (es ++ [ECall (CClear fd ev) rc]) = pending es)
    by (intros; now rewrite pending_snoc).
  assert (I0 : forall rc, rc = -1 ->
    forall x, interest (es ++ [ECall (CClear fd ev) rc]) x = interest es x)
    by (intros ? -> x; now rewrite interest_snoc).
  assert (I1 : Z.land (interest es fd) (Z.lnot ev) = interest es fd ->
    forall x, interest (es ++ [ECall (CClear fd ev) 0]) x = interest es x).
  { intros E x. rewrite interest_snoc. cbn. now apply interest_upd_same. }
  destruct (Z.ltb_spec fd 0).
  { intros E; injection E as <- <-. apply stays_same; cbn; auto. }
  destruct (Z.eqb_spec ev 0) as [->|Hev].
  { intros E; injection E as <- <-. apply stays_same; cbn; auto.
    apply I1. rewrite Z.lnot_0, Z.land_m1_r. reflexivity. }
  destruct (Z.leb_spec fd (tp_max tp)) as [Hm|Hm].
  2: { intros E; injection E as <- <-. apply stays_same; cbn; auto. apply I1.
       enough (interest es fd = 0) as -> by reflexivity.
       destruct (nth_error (tp_arr tp) (Z.to_nat fd)) as [e|] eqn:E.
       - assert (X := f_above F _ E ltac:(lia)).
         assert (Y := f_ent F E ltac:(lia)). destruct Y as (_ & Y & _).
         rewrite Z2Nat.id in Y by lia. destruct Y as [Y|Y]; [easy|]. lia.
       - apply nth_error_None in E. apply (f_out F). right; left. rewrite (f_len F) in E. lia. }
  destruct (nth_error (tp_arr tp) (Z.to_nat fd)) as [e|] eqn:E.
  2: { apply nth_error_None in E. rewrite (f_len F) in E. pose proof (f_max F). lia. }
  rewrite (get_ok _ _ E). cbn [bind].
  assert (Y := f_ent F E ltac:(lia)). rename Y into EO.
  pose proof EO as (A & B & C).
  rewrite Z2Nat.id in * by lia.
  destruct (Z.ltb_spec (-1) (p_fd e)) as [Hu|Hu].
  2: { intros Q; injection Q as <- <-. apply stays_same; cbn; auto. apply I1.
       destruct B as [[_ ->]|[? ?]]; [reflexivity|lia]. }
  destruct B as [[? ?]|[B Bi]]; [lia|].
  rewrite B, Z.eqb_refl. cbn [assert_ bind].
  rewrite A in *. set (new := Z.land (interest es fd) (Z.lnot ev)) in *.
  destruct (Z.eqb_spec (interest es fd) new) as [Q|Q].
  { intros W; injection W as <- <-. apply stays_same; cbn; auto. }
  assert (In : interest (es ++ [ECall (CClear fd ev) 0]) fd = new).
  { rewrite interest_snoc. cbn. unfold upd. now rewrite Z.eqb_refl. }
  assert (Io : forall x, x <> Z.of_nat (Z.to_nat fd) ->
    interest (es ++ [ECall (CClear fd ev) 0]) x = interest es x).
  { intros x Hx. rewrite Z2Nat.id in Hx by lia. rewrite interest_snoc. cbn. unfold upd.
    destruct (Z.eqb_spec x fd); [lia|reflexivity]. }
  assert (NE : nth (Z.to_nat fd) (tp_arr tp) free_pfd = e) by now apply nth_error_nth.
  assert (Ul : forall r, undisturbed (es ++ [ECall (CClear fd ev) r]) = true -> undisturbed es = true)
    by (intros r; apply undisturbed_le).
  destruct (Z.eqb_spec new 0) as [Hn|Hn].
  - destruct (put (tp_arr tp) (Z.to_nat fd) (mkPfd (-1) 0 0)) as [a|] eqn:Pa; [|discriminate].
    cbn [bind]. destruct (nth_put _ _ _ Pa) as (K & La & Ga).
    assert (SC : exists m, (if tp_max tp =? fd then scan_down a (Z.to_nat fd) else Ok (tp_max tp)) = Ok m
      /\ Z.of_nat pipe <= m < Z.of_nat (tp_alloc tp) /\
      (forall i e, nth_error a i = Some e -> m < Z.of_nat i -> p_fd e = -1)).
    { pose proof (f_max F) as FM.
      destruct (Z.eqb_spec (tp_max tp) fd) as [Em|Em].
      - destruct (@scan_ok a (Z.to_nat fd)) as (m & Em' & B1 & F1 & G1); [lia|].
        exists m. split; [exact Em'|].
        destruct (f_pe F) as (r & R).
        assert (Rp : nth_error a pipe = Some (mkPfd (Z.of_nat pipe) POLLIN r)).
        { rewrite Ga. destruct (Nat.eqb_spec pipe (Z.to_nat fd)); [lia|exact R]. }
        specialize (G1 _ _ Rp ltac:(lia)). unfold inuse in G1. cbn [p_fd] in G1.
        specialize (G1 ltac:(apply Z.ltb_lt; lia)).
        split; [lia|]. intros i e' He Hi. pose proof He as He'.
        rewrite Ga in He. destruct (Nat.eqb_spec i (Z.to_nat fd)) as [->|Ni].
        + now injection He as <-.
        + destruct (Nat.lt_ge_cases i (Z.to_nat fd)) as [Lt|Ge].
          * specialize (F1 _ _ He' Hi Lt). unfold inuse in F1. apply Z.ltb_ge in F1.
            destruct (Nat.eq_dec i pipe) as [->|Np].
            -- rewrite R in He. injection He as <-. cbn in *. lia.
            -- destruct (f_ent F He Np) as (_ & [[? ?]|[? ?]] & _); lia.
          * apply (f_above F _ He). lia.
      - exists (tp_max tp). split; [reflexivity|]. split; [exact FM|].
        intros i e' He Hi. rewrite Ga in He.
        destruct (Nat.eqb_spec i (Z.to_nat fd)) as [->|Ni]; [now injection He as <-|].
        now apply (f_above F _ He). }
    destruct SC as (m & -> & Mm & Ma). cbn [bind].
    assert (Sk : sig_ok (set_fds tp a (tp_used tp - 1) m)) by exact S.
    destruct (send_spec Sk) as (b & s & -> & Hb & Hb1 & Hb2).
    intros W; injection W as <- <-.
    eapply stays_put; eauto.
    + cbn; auto.
    + lia.
    + unfold ent_ok. rewrite Z2Nat.id, In by lia. cbn. rewrite Hn.
      split; [reflexivity|]. split; [now left|]. intros _. rewrite ready_0; [reflexivity|].
      now rewrite In.
    + rewrite NE, B. unfold inuse. cbn [p_fd one].
      destruct (Z.gtb_spec fd (-1)); [|lia]. cbn. lia.
    + cbn. discriminate.
  - destruct (put (tp_arr tp) (Z.to_nat fd) (mkPfd fd new (p_revents e))) as [a|] eqn:Pa;
      [|discriminate].
    cbn [bind]. destruct (nth_put _ _ _ Pa) as (K & La & Ga).
    assert (Sk : sig_ok (set_fds tp a (tp_used tp) (tp_max tp))) by exact S.
    destruct (send_spec Sk) as (b & s & -> & Hb & Hb1 & Hb2).
    intros W; injection W as <- <-.
    eapply stays_put; eauto.
    + cbn; auto.
    + lia.
    + unfold ent_ok. rewrite Z2Nat.id, In by lia. cbn [p_events p_fd p_revents].
      split; [reflexivity|]. split; [right; lia|]. intros U.
      rewrite ready_snoc, <- interest_snoc, In.
      destruct (Z.eqb_spec new 0); [lia|]. apply C. eapply Ul, U.
    + rewrite NE, B. unfold inuse. cbn [p_fd].
      destruct (Z.gtb_spec fd (-1)); [|lia]. destruct (Z.ltb_spec (-1) fd); [|lia]. lia.
    + apply (f_max F).
    + intros i e' He Hi. rewrite Ga in He.
      destruct (Nat.eqb_spec i (Z.to_nat fd)) as [->|Ni]; [|now apply (f_above F _ He)].
      injection He as <-. lia.
    + cbn. discriminate.
Qed.

(** _tpoll_grow *)
Lemma grow_spec n0 pipe room tp es req tp' r : good n0 pipe tp es ->
  grow room tp req = Ok (tp', r) ->
  good n0 pipe tp' es /\ (r = 0 \/ r = -1) /\
  (r = 0 -> req <= Z.of_nat (tp_alloc tp')) /\
  (tp_alloc tp <= tp_alloc tp')%nat /\
  tp_blocked tp' = tp_blocked tp /\
  (tp_gen tp' = tp_gen tp /\ tp_realloced tp' = tp_realloced tp \/ tp_realloced tp' = true) /\
  tp_timers tp' = tp_timers tp /\ (tp_bytes tp <= tp_bytes tp')%nat /\
  (forall i e, nth_error (tp_arr tp) i = Some e -> nth_error (tp_arr tp') i = Some e).
Proof.
  intros Gd. pose proof Gd as (F & T & S). unfold grow.
  destruct (0 <? req); cbn [assert_ bind]; [|discriminate].
  destruct (Z.leb_spec req (Z.of_nat (tp_alloc tp))) as [L|L].
  { intros E; injection E as <- <-. repeat (split; [auto with zarith|]). eauto. }
  destruct (grow_size 32 (Z.of_nat (tp_alloc tp)) req) as [n|] eqn:Gs; [|discriminate].
  cbn [bind]. apply grow_size_ge in Gs.
  destruct (send_spec S) as (b & s & -> & Hb & Hb1 & Hb2).
  destruct room; cbn [negb].
  2: { intros E; injection E as <- <-. split.
       { split; [now apply fds_signal|]. split; [now apply tm_signal|exact Hb]. }
       split; [auto|]. split; [lia|]. cbn. split; [lia|]. auto. }
  cbn. intros E; injection E as <- <-. cbn.
  assert (N : forall i e, nth_error (tp_arr tp ++ repeat free_pfd (Z.to_nat n - tp_alloc tp)) i = Some e ->
    nth_error (tp_arr tp) i = Some e \/ (tp_alloc tp <= i < Z.to_nat n)%nat /\ e = free_pfd).
  { intros i e He. rewrite <- (f_len F).
    destruct (Nat.lt_ge_cases i (length (tp_arr tp))) as [Hi|Hi].
    - rewrite nth_error_app1 in He by auto. now left.
    - rewrite nth_error_app2 in He by auto. right. pose proof (nth_repeat _ _ _ He).
      split; [|auto].
      assert (nth_error (repeat free_pfd (Z.to_nat n - tp_alloc tp)) (i - length (tp_arr tp)) <> None)
        as Q by congruence.
      apply nth_error_Some in Q. rewrite repeat_length in Q. rewrite (f_len F) in *. lia. }
  assert (P : forall i e, nth_error (tp_arr tp) i = Some e ->
    nth_error (tp_arr tp ++ repeat free_pfd (Z.to_nat n - tp_alloc tp)) i = Some e).
  { intros i e He. rewrite nth_error_app1; [exact He|]. apply nth_error_Some. congruence. }
  split; [split; [|split]|].
  - destruct F as [Fp Fl Fn Fpa Fpe Fe Fo Fm Fa Fu]. constructor; cbn; auto.
    + rewrite app_length, repeat_length. lia.
    + lia.
    + lia.
    + destruct Fpe as (x & X). exists x. auto.
    + intros i e He Hi. destruct (N _ _ He) as [He'|[Hr ->]]; [auto|].
      unfold ent_ok. cbn. rewrite ready_0 by (apply Fo; lia). rewrite Fo by lia. auto.
    + intros fd Hfd. apply Fo. lia.
    + lia.
    + intros i e He Hi. destruct (N _ _ He) as [He'|[Hr ->]]; [eauto|reflexivity].
    + rewrite count_app, count_free. lia.
  - destruct T. now constructor.
  - exact Hb.
  - split; [auto|]. split; [lia|]. split; [lia|]. auto.
Qed.

(** tpoll_set *)
Lemma set_stays dbg n0 pipe tp es fd ev room tp' rc : good n0 pipe tp es -> fd <> Z.of_nat pipe ->
  tpoll_set dbg room tp fd ev = Ok (tp', rc) ->
  stays n0 pipe tp es tp' (ECall (CSet fd ev room) rc).
Proof.
  intros Gd Hp. unfold tpoll_set.
  assert (Pn : forall rc, pending (es ++ [ECall (CSet fd ev room) rc]) = pending es)
    by (intros; now rewrite pending_snoc).
  assert (I0 : forall x, interest (es ++ [ECall (CSet fd ev room) (-1)]) x = interest es x)
    by (intros x; now rewrite interest_snoc).
  assert (I1 : Z.lor (interest es fd) ev = interest es fd ->
    forall x, interest (es ++ [ECall (CSet fd ev room) 0]) x = interest es x).
  { intros E x. rewrite interest_snoc. cbn. now apply interest_upd_same. }
  destruct (Z.ltb_spec fd 0).
  { intros E; injection E as <- <-. apply stays_same; cbn; auto. }
  destruct (Z.eqb_spec ev 0) as [->|Hev].
  { intros E; injection E as <- <-. apply stays_same; cbn; auto. apply I1, Z.lor_0_r. }
  set (G := if Z.of_nat (tp_alloc tp) <=? fd then
              if INT_MAX <? fd + 1 then UB SignedOverflow else grow room tp (fd + 1)
            else Ok (tp, 0)).
  destruct G as [[tp1 r]|] eqn:EG; [|discriminate]. cbn [bind].
  assert (H1 : good n0 pipe tp1 es /\ (r = 0 \/ r = -1) /\
    (r = 0 -> fd < Z.of_nat (tp_alloc tp1)) /\
    (tp_alloc tp <= tp_alloc tp1)%nat /\
    tp_blocked tp1 = tp_blocked tp /\
    (tp_gen tp1 = tp_gen tp /\ tp_realloced tp1 = tp_realloced tp \/ tp_realloced tp1 = true) /\
    tp_timers tp1 = tp_timers tp /\ (tp_bytes tp <= tp_bytes tp1)%nat /\
    (forall i e, nth_error (tp_arr tp) i = Some e -> nth_error (tp_arr tp1) i = Some e)).
  { subst G. destruct (Z.leb_spec (Z.of_nat (tp_alloc tp)) fd).
    - destruct (INT_MAX <? fd + 1); [discriminate|].
      destruct (grow_spec _ _ Gd EG) as (A & B & C & D & E & X). split; [exact A|].
      split; [exact B|]. split; [intros Q; specialize (C Q); lia|]. split; [exact D|].
      split; [exact E|exact X].
    - injection EG as <- <-. repeat (split; [auto with zarith|]). eauto. }
  clear EG G.
  destruct H1 as (G1 & Hr & Ha & Hal & Hbl & Hg & Ht & Hby & Hn).
  pose proof G1 as (F1 & T1 & S1). pose proof Gd as (F & T & S).
  assert (Lift : forall tp2 x, withdraws x = false -> stays n0 pipe tp1 es tp2 x -> stays n0 pipe tp es tp2 x).
  { intros tp2 x Wx (G2 & [Eb El Er Ew Em Ep Ev]). split; [exact G2|].
    constructor.
    - congruence.
    - rewrite (f_len F). rewrite (f_len F1) in El. lia.
    - destruct Er as [[E1 E2]|E1]; [|now right]. destruct Hg as [[E3 E4]|E3]; [left|right]; try congruence.
      split; congruence.
    - destruct Ew as [Ew|[E1 E2]]; [left; rewrite <- Hbl; exact Ew|]. right.
      rewrite <- Ht. auto.
    - lia.
    - destruct Ep as [Ep|Ep]; [|now right]. left. rewrite Ep.
      destruct (f_pe F) as (y & Y). rewrite Y. now apply Hn.
    - intros W i e He Hne. apply (Ev W i e); auto. }
  destruct (Z.ltb_spec r 0).
  { intros E; injection E as <- <-. apply Lift; [reflexivity|].
    apply stays_same; cbn; auto. }
  destruct Hr as [-> |]; [|lia]. specialize (Ha eq_refl).
  destruct (nth_error (tp_arr tp1) (Z.to_nat fd)) as [e|] eqn:E.
  2: { apply nth_error_None in E. rewrite (f_len F1) in E. lia. }
  rewrite (get_ok _ _ E). cbn [bind].
  assert (EO := f_ent F1 E ltac:(lia)). pose proof EO as (A & B & C).
  rewrite Z2Nat.id in * by lia.
  assert (NE : nth (Z.to_nat fd) (tp_arr tp1) free_pfd = e) by now apply nth_error_nth.
  assert (Io : forall x, x <> Z.of_nat (Z.to_nat fd) ->
    interest (es ++ [ECall (CSet fd ev room) 0]) x = interest es x).
  { intros x Hx. rewrite Z2Nat.id in Hx by lia. rewrite interest_snoc. cbn. unfold upd.
    destruct (Z.eqb_spec x fd); [lia|reflexivity]. }
  assert (In : interest (es ++ [ECall (CSet fd ev room) 0]) fd = Z.lor (interest es fd) ev).
  { rewrite interest_snoc. cbn. unfold upd. now rewrite Z.eqb_refl. }
  assert (Nz : Z.lor (interest es fd) ev <> 0) by (intros Q; apply lor_0 in Q; auto).
  assert (Rd : ready (es ++ [ECall (CSet fd ev room) 0]) fd = ready es fd).
  { rewrite ready_snoc, <- interest_snoc, In.
    destruct (Z.eqb_spec (Z.lor (interest es fd) ev) 0); [lia|reflexivity]. }
  destruct (Z.ltb_spec (p_fd e) 0) as [Hu|Hu].
  - destruct B as [[Bf Bi]|[? ?]]; [|lia].
    rewrite A, Bi. cbn [Z.eqb assert_ bind].
    destruct (assert_if dbg (p_revents e =? 0)); [|discriminate]. cbn [bind].
    destruct (put (tp_arr tp1) (Z.to_nat fd) (mkPfd fd ev (p_revents e))) as [a'|] eqn:Pa;
      [|discriminate].
    cbn [bind]. destruct (nth_put _ _ _ Pa) as (K & La & Ga).
    set (mx := if tp_max tp1 <? fd then fd else tp_max tp1).
    assert (Sk : sig_ok (set_fds tp1 a' (tp_used tp1 + 1) mx)) by exact S1.
    destruct (send_spec Sk) as (b & s & -> & Hb & Hb1 & Hb2).
    intros W; injection W as <- <-. apply Lift; [reflexivity|].
    eapply stays_put; eauto.
    + cbn; auto.
    + lia.
    + unfold ent_ok. rewrite Z2Nat.id, In, Rd by lia. cbn [p_events p_fd p_revents].
      rewrite Bi in *. rewrite Z.lor_0_l. split; [reflexivity|]. split; [right; auto|].
      intros U. apply C. now apply undisturbed_le in U.
    + rewrite NE, Bf. unfold inuse. cbn [p_fd].
      destruct (Z.ltb_spec (-1) fd); [|lia]. cbn. lia.
    + pose proof (f_max F1). subst mx. destruct (Z.ltb_spec (tp_max tp1) fd); lia.
    + intros i e' He Hi. rewrite Ga in He.
      destruct (Nat.eqb_spec i (Z.to_nat fd)) as [->|Ni].
      * subst mx. destruct (Z.ltb_spec (tp_max tp1) fd); lia.
      * apply (f_above F1 _ He). subst mx. destruct (Z.ltb_spec (tp_max tp1) fd); lia.
    + intros _. cbn. lia.
  - destruct B as [[? ?]|[Bf Bi]]; [lia|].
    rewrite A in *.
    destruct (Z.eqb_spec (interest es fd) (Z.lor (interest es fd) ev)) as [Q|Q].
    { intros W; injection W as <- <-. apply Lift; [reflexivity|].
      apply stays_same; cbn; auto. }
    destruct (put (tp_arr tp1) (Z.to_nat fd)
      (mkPfd (p_fd e) (Z.lor (interest es fd) ev) (p_revents e))) as [a'|] eqn:Pa; [|discriminate].
    cbn [bind]. destruct (nth_put _ _ _ Pa) as (K & La & Ga).
    assert (Sk : sig_ok (set_fds tp1 a' (tp_used tp1) (tp_max tp1))) by exact S1.
    destruct (send_spec Sk) as (b & s & -> & Hb & Hb1 & Hb2).
    intros W; injection W as <- <-. apply Lift; [reflexivity|].
    eapply stays_put; eauto.
    + cbn; auto.
    + lia.
    + unfold ent_ok. rewrite Z2Nat.id, In, Rd by lia. cbn [p_events p_fd p_revents].
      split; [reflexivity|]. split; [right; auto|].
      intros U. apply C. now apply undisturbed_le in U.
    + rewrite NE, Bf. unfold inuse. cbn [p_fd].
      destruct (Z.gtb_spec fd (-1)); [|lia]. destruct (Z.ltb_spec (-1) fd); [|lia]. lia.
    + apply (f_max F1).
    + intros i e' He Hi. rewrite Ga in He.
      destruct (Nat.eqb_spec i (Z.to_nat fd)) as [->|Ni]; [|now apply (f_above F1 _ He)].
      pose proof (f_above F1 _ E). lia.
    + intros _. cbn. lia.
Qed.

(** tpoll_is_set *)
Lemma isset_value dbg n0 pipe tp es fd ev rc : good n0 pipe tp es -> fd <> Z.of_nat pipe ->
  tpoll_is_set dbg tp fd ev = Ok rc -> isset_ok es (ECall (CIsSet fd ev) rc).
Proof.
  intros (F & _ & _) Hp. unfold tpoll_is_set, isset_ok.
  destruct (Z.ltb_spec fd 0); [intros E; now injection E|].
  destruct (Z.ltb_spec (tp_max tp) fd) as [L|L].
  - cbn [bind]. intros E U.
    assert (X : interest es fd = 0).
    { destruct (nth_error (tp_arr tp) (Z.to_nat fd)) as [e|] eqn:N.
      - assert (X := f_above F _ N ltac:(lia)).
        destruct (f_ent F N ltac:(lia)) as (_ & Y & _). rewrite Z2Nat.id in Y by lia.
        destruct Y as [Y|Y]; [easy|lia].
      - apply nth_error_None in N. apply (f_out F). right; left. rewrite (f_len F) in N. lia. }
    rewrite ready_0 by auto. cbn.
    destruct dbg; [destruct (get _ _); [|discriminate]|]; cbn in E; now injection E.
  - destruct (nth_error (tp_arr tp) (Z.to_nat fd)) as [e|] eqn:N.
    2: { apply nth_error_None in N. rewrite (f_len F) in N. pose proof (f_max F). lia. }
    rewrite (get_ok _ _ N). cbn [bind].
    destruct (f_ent F N ltac:(lia)) as (_ & Y & C). rewrite Z2Nat.id in * by lia.
    intros E U. specialize (C U).
    assert (D : forall (r : Z), (do _ <- (if dbg then Ok tt else Ok tt); Ok r) = Ok r)
      by (intros; now destruct dbg).
    destruct (Z.ltb_spec (p_fd e) 0) as [B|B]; cbn [bind] in E.
    + rewrite D in E. injection E as <-. destruct Y as [[_ Y]|[Y _]]; [|lia].
      now rewrite ready_0.
    + destruct Y as [[Y _]|[Y _]]; [lia|]. rewrite Y, Z.eqb_refl in E.
      cbn [assert_ bind] in E. rewrite D in E. injection E as <-. now rewrite C.
Qed.

Lemma isset_stays dbg n0 pipe tp es fd ev rc : good n0 pipe tp es ->
  tpoll_is_set dbg tp fd ev = Ok rc -> stays n0 pipe tp es tp (ECall (CIsSet fd ev) rc).
Proof.
  intros G _. apply stays_same; cbn; auto; intros; now rewrite ?interest_snoc, ?pending_snoc.
Qed.

(** timers *)
Lemma absolute_stays n0 pipe tp es f a tv tp' rc x :
  good n0 pipe tp es -> tv_ok tv -> timeout_absolute tp f a tv = Ok (tp', rc) ->
  not_polled x -> (forall fd, interest (es ++ [x]) fd = interest es fd) ->
  pending (es ++ [x]) = (if 0 <? rc then pending es ++ [mkP rc f a (us tv)] else pending es) ->
  withdraws x = false ->
  stays n0 pipe tp es tp' x /\
  (if f =? 0 then rc = -1 else 0 < rc /\ ~ In rc (map d_id (pending es))).
Proof.
  intros G Ht. unfold timeout_absolute. intros E N I P W. pose proof G as (F & T & S).
  destruct (f =? 0).
  { injection E as <- <-. split; [|reflexivity]. now apply stays_same. }
  destruct (tp_next tp =? INT_MAX); [discriminate|].
  destruct T as [Th Tn Ti Tx].
  set (t := mkTimer (tp_next tp) f a tv) in *.
  assert (NI : ~ In (tp_next tp) (map d_id (pending es))).
  { intros C. apply in_map_iff in C. destruct C as (p & Ep & Hp).
    rewrite Forall_forall in Ti. specialize (Ti p Hp). lia. }
  assert (X : exists b s, (if at_head t (tp_timers tp) then signal_send tp else tp) = set_signal tp b s
    /\ b = (if s : bool then 1%nat else 0%nat) /\ (tp_bytes tp <= b)%nat /\
    ((tp_blocked tp = true -> (0 < b)%nat) \/ at_head t (tp_timers tp) = false)).
  { destruct (at_head t (tp_timers tp)).
    - destruct (send_spec S) as (b & s & E1 & E2 & E3 & E4). exists b, s. auto.
    - exists (tp_bytes tp), (tp_signaled tp). split; [now destruct tp|].
      split; [exact S|]. split; [lia|now right]. }
  destruct X as (b & s & Eb & Hb & Hb1 & Hb2). rewrite Eb in E.
  destruct (Z.leb_spec (tp_next tp + 1) 0) as [?|_]; [lia|].
  injection E as <- <-.
  split; [|split; [lia|exact NI]].
  destruct (Z.ltb_spec 0 (tp_next tp)); [|lia].
  split; [split; [|split]|].
  - apply fds_timers, fds_signal. now apply fds_keep.
  - constructor; cbn; rewrite ?P.
    + apply (@holds_insert t); [exact Ht|exact Th].
    + rewrite map_app. cbn [map d_id]. pose proof (Add_app (tp_next tp) (map d_id (pending es)) []) as AD.
      rewrite app_nil_r in AD. apply (NoDup_Add AD). auto.
    + apply Forall_app. split.
      * eapply Forall_impl; [|exact Ti]. cbn. intros; lia.
      * constructor; [cbn; lia|constructor].
    + lia.
  - exact Hb.
  - constructor; cbn; auto.
    + destruct Hb2 as [Hb2|Hb2]; [now left|]. right. split; [|exact I].
      unfold at_head in Hb2. destruct (tp_timers tp) as [|y l]; [discriminate|].
      cbn [insert]. now rewrite Hb2.
    + intros _ i e He Hne. eauto.
Qed.

Lemma existsb_ids id l ps : holds l ps ->
  existsb (fun t => id =? t_id t) l = true <-> In id (map d_id ps).
Proof.
  intros H. rewrite existsb_exists, in_map_iff. split.
  - intros (t & Ht & E). apply Z.eqb_eq in E. exists (conv t). split; [now cbn|].
    apply (holds_in H). now apply in_map.
  - intros (p & E & Hp). apply (holds_in H) in Hp. apply in_map_iff in Hp.
    destruct Hp as (t & <- & Ht). exists t. split; [exact Ht|]. apply Z.eqb_eq. now cbn in E.
Qed.

Lemma without_none id ps : ~ In id (map d_id ps) -> without id ps = ps.
Proof.
  intros N. apply filter_all. intros p Hp. apply negb_true_iff, Z.eqb_neq. intros E.
  apply N. rewrite <- E. now apply in_map.
Qed.

Lemma without_ids id ps n : Forall (fun p => 0 < d_id p < n) ps ->
  Forall (fun p => 0 < d_id p < n) (without id ps).
Proof.
  rewrite !Forall_forall. intros H p Hp. apply filter_In in Hp. now apply H.
Qed.

Lemma cancel_stays n0 pipe tp es id tp' rc :
  good n0 pipe tp es -> timeout_cancel tp id = Ok (tp', rc) ->
  stays n0 pipe tp es tp' (ECall (CCancel id) rc) /\ id_ok es (ECall (CCancel id) rc).
Proof.
  intros G. pose proof G as (F & T & S). unfold timeout_cancel.
  set (x := ECall (CCancel id)).
  assert (I : forall r fd, interest (es ++ [x r]) fd = interest es fd)
    by (intros; now rewrite interest_snoc).
  assert (P : forall r, pending (es ++ [x r]) = without id (pending es))
    by (intros; now rewrite pending_snoc).
  destruct T as [Th Tn Ti Tx].
  destruct (Z.leb_spec id 0) as [L|L].
  { intros E; injection E as <- <-.
    split.
    - apply stays_same; cbn; auto. rewrite P. apply without_none. intros C.
      apply in_map_iff in C. destruct C as (p & Ep & Hp). rewrite Forall_forall in Ti.
      specialize (Ti p Hp). lia.
    - cbn. split; [auto|lia]. }
  assert (X := existsb_ids id Th).
  destruct (existsb (fun t => id =? t_id t) (tp_timers tp)) eqn:Ex.
  2: { intros E; injection E as <- <-.
       assert (NI : ~ In id (map d_id (pending es))) by (intros C; now apply X in C).
       split.
       - apply stays_same; cbn; auto. rewrite P. now apply without_none.
       - cbn. split; [lia|]. intros _. split; [|auto]. split; [lia|]. intros C. easy. }
  assert (IN : In id (map d_id (pending es))) by now apply X.
  assert (Y : exists b s, (if head_id id (tp_timers tp) then signal_send tp else tp) = set_signal tp b s
    /\ b = (if s : bool then 1%nat else 0%nat) /\ (tp_bytes tp <= b)%nat /\
    ((tp_blocked tp = true -> (0 < b)%nat) \/ head_id id (tp_timers tp) = false)).
  { destruct (head_id id (tp_timers tp)).
    - destruct (send_spec S) as (b & s & E1 & E2 & E3 & E4). exists b, s. auto.
    - exists (tp_bytes tp), (tp_signaled tp). split; [now destruct tp|].
      split; [exact S|]. split; [lia|now right]. }
  destruct Y as (b & s & -> & Hb & Hb1 & Hb2).
  intros E; injection E as <- <-.
  split; [|cbn; split; [lia|]; intros _; split; [tauto|auto]].
  split; [split; [|split]|].
  - apply fds_timers, fds_signal. apply fds_keep; cbn; auto.
  - constructor; cbn; rewrite ?P.
    + apply holds_remove; [exact Th|]. exact (holds_nodup Th Tn).
    + now apply nodup_without.
    + now apply without_ids.
    + lia.
  - exact Hb.
  - constructor; cbn; auto.
    + destruct Hb2 as [Hb2|Hb2]; [now left|]. right. split; [|apply I].
      destruct (tp_timers tp) as [|y l]; [reflexivity|]. cbn in Hb2. cbn [remove].
      now rewrite Hb2.
    + intros _ i e He Hne. eauto.
Qed.

(** tpoll_zero *)
Lemma has_1 how : has how 1 = Z.testbit how 0.
Proof.
  unfold has. change 1 with (Z.ones 1). rewrite Z.land_ones by lia.
  change (2 ^ 1) with 2. rewrite Z.bit0_odd, Zmod_odd. now destruct (Z.odd how).
Qed.
Lemma has_2 how : has how 2 = Z.testbit how 1.
Proof.
  unfold has. destruct (Z.testbit how 1) eqn:E.
  - apply negb_true_iff, Z.eqb_neq. intros Q.
    assert (X := f_equal (fun z => Z.testbit z 1) Q). cbv beta in X.
    rewrite Z.land_spec, E in X. discriminate X.
  - apply negb_false_iff, Z.eqb_eq. apply Z.bits_inj'. intros k Hk.
    rewrite Z.land_spec, Z.bits_0. change 2 with (2 ^ 1). rewrite Z.pow2_bits_eqb by lia.
    destruct (Z.eqb_spec 1 k) as [<-|_]; [now rewrite E|apply andb_false_r].
Qed.

Lemma zero_stays n0 pipe tp es how tp' rc :
  good n0 pipe tp es -> tpoll_zero tp how = Ok (tp', rc) ->
  stays n0 pipe tp es tp' (ECall (CZero how) rc).
Proof.
  intros G. pose proof G as (F & T & S). unfold tpoll_zero.
  destruct (Z.eqb_spec (Z.land how (Z.lnot 3)) 0) as [E|E]; cbn [negb].
  2: { intros Q; injection Q as <- <-.
       apply stays_same; cbn; auto; intros; now rewrite ?interest_snoc, ?pending_snoc. }
  unfold tpoll_init. destruct (0 <? tp_alloc tp)%nat; cbn [assert_ bind]; [|discriminate].
  rewrite E. change (0 =? 0) with true. cbn [assert_ bind].
  set (x := ECall (CZero how) 0).
  assert (I : interest (es ++ [x]) = if Z.testbit how 0 then fun _ => 0 else interest es)
    by now rewrite interest_snoc.
  assert (P : pending (es ++ [x]) = if Z.testbit how 1 then [] else pending es)
    by now rewrite pending_snoc.
  set (r1 := if has how 1 then _ else Ok tp).
  destruct r1 as [tp1|] eqn:E1; [|discriminate]. cbn [bind].
  assert (H1 : fds_ok n0 pipe tp1 (es ++ [x]) /\ tp_timers tp1 = tp_timers tp /\
     tp_next tp1 = tp_next tp /\ sig_ok tp1 /\ tp_bytes tp1 = tp_bytes tp /\
     tp_blocked tp1 = tp_blocked tp /\ tp_gen tp1 = tp_gen tp /\
     tp_realloced tp1 = tp_realloced tp /\ length (tp_arr tp1) = length (tp_arr tp) /\
     (nth_error (tp_arr tp1) pipe = nth_error (tp_arr tp) pipe \/
      nth_error (tp_arr tp1) pipe = Some (mkPfd (Z.of_nat pipe) POLLIN 0))).
  { subst r1. rewrite has_1 in E1. destruct (Z.testbit how 0) eqn:B0.
    - destruct (put _ _ _) as [a|] eqn:Pa; [|discriminate]. cbn in E1. injection E1 as <-.
      destruct (nth_put _ _ _ Pa) as (K & La & Ga). cbn.
      rewrite repeat_length in *. destruct F as [Fp Fl Fn Fpa Fpe Fe Fo Fm Fa Fu].
      rewrite Fp in *.
      assert (Gp : nth_error a pipe = Some (mkPfd (Z.of_nat pipe) POLLIN 0))
        by (rewrite Ga, Nat.eqb_refl; reflexivity).
      split; [|repeat (split; [auto; congruence|]); now right].
      constructor; cbn; auto.
      + eauto.
      + intros i e He Hi. rewrite Ga in He. destruct (Nat.eqb_spec i pipe); [lia|].
        apply nth_repeat in He. subst e. unfold ent_ok. rewrite I. cbn.
        split; [reflexivity|]. split; [now left|]. intros _. rewrite ready_0; [reflexivity|].
        now rewrite I.
      + intros fd _. now rewrite I.
      + lia.
      + intros i e He Hi. rewrite Ga in He. destruct (Nat.eqb_spec i pipe); [lia|].
        apply nth_repeat in He. now subst e.
      + destruct (nth_error (repeat free_pfd (tp_alloc tp)) pipe) as [y|] eqn:Ny.
        2: { apply nth_error_None in Ny. rewrite repeat_length in Ny. lia. }
        rewrite (count_put _ _ _ Pa Ny), count_free. apply nth_repeat in Ny. subst y.
        unfold inuse. cbn [p_fd free_pfd]. destruct (Z.ltb_spec (-1) (Z.of_nat pipe)); [|lia].
        reflexivity.
    - injection E1 as <-. split; [|repeat (split; [auto; congruence|]); now left].
      apply fds_keep; cbn; auto. intros; now rewrite I. }
  destruct H1 as (F1 & Ht1 & Hn1 & S1 & Hb1 & Hl1 & Hg1 & Hr1 & Hlen & Hpi).
  rewrite has_2.
  set (tp2 := if Z.testbit how 1 then set_timers tp1 [] 1 else tp1).
  assert (H2 : fds_ok n0 pipe tp2 (es ++ [x]) /\ tm_ok tp2 (es ++ [x]) /\ sig_ok tp2 /\
     tp_bytes tp2 = tp_bytes tp /\ tp_blocked tp2 = tp_blocked tp /\ tp_gen tp2 = tp_gen tp /\
     tp_realloced tp2 = tp_realloced tp /\ tp_arr tp2 = tp_arr tp1).
  { subst tp2. destruct (Z.testbit how 1).
    - split; [now apply fds_timers|]. split.
      + constructor; cbn; rewrite ?P; try constructor; try lia.
        * constructor.
        * split; [reflexivity|constructor].
      + cbn. repeat split; auto; congruence.
    - split; [exact F1|]. split.
      + destruct T. constructor; rewrite ?Ht1, ?Hn1, ?P; auto.
      + repeat split; auto; congruence. }
  destruct H2 as (F2 & T2 & S2 & B2 & L2 & G2 & R2 & A2).
  destruct (send_spec S2) as (b & s & -> & Hb & Hb1' & Hb2).
  intros Q; injection Q as <- <-.
  split; [split; [|split]|].
  - now apply fds_signal.
  - now apply tm_signal.
  - exact Hb.
  - constructor; cbn.
    + exact L2.
    + rewrite A2, Hlen. lia.
    + left. auto.
    + left. rewrite <- L2. exact Hb2.
    + lia.
    + rewrite A2. destruct Hpi as [Hpi|Hpi]; auto.
    + discriminate.
Qed.

(** Every call *)
Lemma call_stays dbg n0 pipe tp es c tp' rc : good n0 pipe tp es -> call_ok c ->
  foreign tp c = false -> do_call dbg tp c = Ok (tp', rc) ->
  stays n0 pipe tp es tp' (ECall c rc) /\ id_ok es (ECall c rc) /\ isset_ok es (ECall c rc).
Proof.
  intros G Hc Hf. assert (Hp : tp_pipe tp = pipe) by apply G.
  destruct c as [fd ev room|fd ev|fd ev|f a tv|f a ms clk|id|how];
    cbn [do_call foreign call_ok] in *; rewrite ?Hp in *; intros E.
  - apply Z.eqb_neq in Hf. split; [|cbn; auto]. eapply set_stays; eauto.
  - apply Z.eqb_neq in Hf. split; [|cbn; auto]. eapply clear_stays; eauto.
  - apply Z.eqb_neq in Hf. destruct (tpoll_is_set dbg tp fd ev) as [r|] eqn:Q; [|discriminate].
    cbn in E. injection E as <- <-. split; [eapply isset_stays; eauto|].
    split; [cbn; auto|]. eapply isset_value; eauto.
  - destruct (@absolute_stays n0 pipe tp es f a tv tp' rc (ECall (CAbsolute f a tv) rc)) as (A & B);
      auto; try (intros; now rewrite ?interest_snoc, ?pending_snoc); cbn; auto.
  - unfold timeout_relative in E. destruct (get_timeval_us ms Hc) as (Ok1 & Eq).
    destruct (@absolute_stays n0 pipe tp es f a (get_timeval clk ms) tp' rc
                (ECall (CRelative f a ms clk) rc)) as (A & B);
      auto; try (intros; now rewrite ?interest_snoc, ?pending_snoc); cbn; auto.
    rewrite pending_snoc, Eq. reflexivity.
  - destruct (cancel_stays _ G E) as (A & B). split; [exact A|]. split; [exact B|]. cbn; auto.
  - split; [|cbn; auto]. eapply zero_stays; eauto.
Qed.
