From Coq Require Import String.
From Verif Require Import Base BaseProof Chars Mem StrModel StrSpec StrProof MsgModel MsgSpec MsgProof DiagModel DiagSpec.
From Coq Require Import Permutation.
Local Open Scope Z_scope.

Lemma prefix_name p : log_prefix p = priority_name p.
Proof.
  unfold log_prefix. repeat match goal with |- context [?a =? ?b] => destruct (Z.eqb_spec a b) as [->|]; [reflexivity|] end.
  destruct p as [|p|p]; [congruence| |reflexivity].
  do 3 (destruct p as [p|p|]; try reflexivity; try congruence).
Qed.
Lemma name_chars p : chars_ok (priority_name p).
Proof.
  rewrite <- prefix_name. unfold log_prefix.
  repeat match goal with |- context [if ?a then _ else _] => destruct a end;
    repeat (apply Forall_cons; [cbv; split; discriminate || reflexivity|]); apply Forall_nil.
Qed.
Lemma name_length p : (List.length (priority_name p) <= 9)%nat.
Proof.
  rewrite <- prefix_name. unfold log_prefix.
  repeat match goal with |- context [if ?a then _ else _] => destruct a end; cbv; repeat constructor.
Qed.
Lemma tag_length (x : list Z) : (List.length x <= 9)%nat -> (List.length (tag x) = 11)%nat.
Proof. intros H. unfold tag. rewrite app_length. cbn [List.length]. rewrite repeat_length. lia. Qed.
Lemma str_at_ok b pre s p : holds b (pre ++ s) -> p = List.length pre -> str_at b p = Ok s.
Proof.
  intros (C & junk & ->) ->. apply Forall_app in C. destruct C as [_ C]. unfold str_at. rewrite <- app_assoc.
  rewrite (find_nul_ok s _ pre junk C) by (rewrite !app_length; cbn [List.length]; lia). cbn [bind].
  replace (List.length pre + List.length s - List.length pre)%nat with (List.length s) by lia. rewrite slice_ok by (rewrite !app_length; cbn [List.length]; lia).
  rewrite skipn_app, skipn_all, Nat.sub_diag. cbn [skipn app]. rewrite firstn_app, firstn_all, Nat.sub_diag. cbn [firstn]. rewrite app_nil_r. reflexivity.
Qed.
Lemma strings_ok m : msg_ok m -> strings m = Ok (dated m, undated m, bare m).
Proof.
  intros (HL & C1 & C2 & HF & HN & HW). unfold strings. rewrite prefix_name.
  pose proof (tag_length _ (name_length (m_prio m))) as HT.
  destruct (log_aux_ok (Z.to_nat 1024) (m_buf m) (m_stamp m) (Some (priority_name (m_prio m))) (m_fmt m) (m_text m) None HL) as (b & s & E & _ & H & ->);
    [lia|exact HF|exact C1|exact C2|discriminate|intros x [= <-]; apply name_chars|].
  rewrite E. cbn [bind]. clear E.
  replace (last (m_fmt m) 0 =? LF) with false in H by (symmetry; apply Z.eqb_neq; exact HN).
  assert (HH : holds b (dated m)).
  { unfold log_text in H. rewrite firstn_all2 in H by (rewrite !app_length; cbn [List.length]; lia).
    unfold dated. rewrite app_nil_r in H. rewrite <- !app_assoc in H. exact H. }
  rewrite (str_at_ok b [] (dated m) 0 HH eq_refl). cbn [bind].
  rewrite (str_at_ok b (m_stamp m) (undated m) _ HH eq_refl). cbn [bind].
  rewrite (str_at_ok b (m_stamp m ++ tag (priority_name (m_prio m))) (bare m)).
  - reflexivity.
  - unfold dated in HH. rewrite <- app_assoc. exact HH.
  - rewrite app_length. lia.
Qed.

(** ** The state between the calls *)
Definition opens (s : lg) : list nat := match g_ptr s with Some n => [n] | None => [] end.
Record inv (s : lg) : Prop := mkInv {
  i_open : g_open s = opens s;
  i_fp : forall n, g_fp s = Some (File n) -> g_ptr s = Some n;
  i_new : forall n, g_ptr s = Some n -> (n < g_new s)%nat;
  i_text : forall n, (g_new s <= n)%nat -> g_text s n = [] }.
Lemma isin_spec n l : isin n l = true <-> In n l.
Proof.
  unfold isin. rewrite existsb_exists. split; [intros (k & H & E); apply Nat.eqb_eq in E; subst; exact H|].
  intros H. exists n. split; [exact H|apply Nat.eqb_refl].
Qed.

(** One message in a state in which the stream in use is open. *)
Definition sees (s : lg) (m : msg) : bool := match g_fp s with Some _ => m_prio m <=? g_level s | None => false end.
Definition line (s : lg) (m : msg) : list Z := if g_time s then dated m else undated m.
Definition put_line (d : dest) (t : list Z) (s : lg) : lg :=
  match d with
  | Stderr => mkLg (g_fp s) (g_level s) (g_time s) (g_syslog s) (g_ptr s) (g_open s) (g_new s) (g_text s) (g_err s ++ [t]) (g_sys s)
  | File n => mkLg (g_fp s) (g_level s) (g_time s) (g_syslog s) (g_ptr s) (g_open s) (g_new s)
                (fun k => if (k =? n)%nat then g_text s k ++ [t] else g_text s k) (g_err s) (g_sys s)
  end.
Definition syslogged (m : msg) (s : lg) : lg := if g_syslog s then to_syslog (m_prio m) (bare m) s else s.
Definition usable (s : lg) : Prop := forall n, g_fp s = Some (File n) -> In n (g_open s).
Lemma syslogged_same m s : g_fp (syslogged m s) = g_fp s /\ g_level (syslogged m s) = g_level s /\ g_time (syslogged m s) = g_time s /\
  g_syslog (syslogged m s) = g_syslog s /\ g_ptr (syslogged m s) = g_ptr s /\ g_open (syslogged m s) = g_open s /\ g_new (syslogged m s) = g_new s /\
  g_text (syslogged m s) = g_text s /\ g_err (syslogged m s) = g_err s /\ g_sys (syslogged m s) = g_sys s ++ (if g_syslog s then [entry m] else []).
Proof. unfold syslogged. destruct (g_syslog s) eqn:E; repeat split; auto. rewrite app_nil_r. reflexivity. Qed.

(** What [log_msg] leaves as it is, and what it does. *)
Record says_one (m : msg) (ok : bool) (s s' : lg) : Prop := mkSays {
  y_level : g_level s' = g_level s; y_time : g_time s' = g_time s; y_syslog : g_syslog s' = g_syslog s; y_ptr : g_ptr s' = g_ptr s;
  y_open : g_open s' = g_open s; y_new : g_new s' = g_new s;
  y_fp : g_fp s' = if sees s m && negb ok then None else g_fp s;
  y_text : forall k, g_text s' k = g_text s k ++ (if sees s m && ok then match g_fp s with Some (File n) => if (k =? n)%nat then [line s m] else [] | _ => [] end else []);
  y_err : g_err s' = g_err s ++ (if sees s m && ok then match g_fp s with Some Stderr => [line s m] | _ => [] end else []);
  y_sys : g_sys s' = g_sys s ++ (if g_syslog s then [entry m] else []) ++ (if sees s m && negb ok then [(LOG_CRIT, stopped)] else []) }.
Lemma log_msg_ok m ok s : msg_ok m -> usable s -> exists s', log_msg m ok s = Ok s' /\ says_one m ok s s'.
Proof.
  intros M U. unfold log_msg. rewrite (strings_ok m M). cbn [bind].
  change (if g_syslog s then to_syslog (m_prio m) (bare m) s else s) with (syslogged m s).
  destruct (syslogged_same m s) as (A1 & A2 & A3 & A4 & A5 & A6 & A7 & A8 & A9 & A10).
  rewrite A1, A2, A3. unfold sees. destruct (g_fp s) as [d|] eqn:F.
  - destruct (m_prio m <=? g_level s) eqn:P.
    + fold (line s m). destruct d as [|n]; cbn [print bind].
      * eexists. split; [reflexivity|]. destruct ok; split; cbn [g_fp g_level g_time g_syslog g_ptr g_open g_new g_text g_err g_sys set_fp to_syslog andb negb];
          try congruence; unfold sees; rewrite ?F, ?P, ?A8, ?A9, ?A10; cbn [andb negb]; try (intros k); rewrite ?app_nil_r; try reflexivity; try assumption.
        rewrite <- !app_assoc. reflexivity.
      * rewrite A6. rewrite (proj2 (isin_spec n _) (U n F)). cbn [bind].
        eexists. split; [reflexivity|]. destruct ok; split; cbn [g_fp g_level g_time g_syslog g_ptr g_open g_new g_text g_err g_sys set_fp to_syslog andb negb];
          try congruence; unfold sees; rewrite ?F, ?P, ?A8, ?A9, ?A10; cbn [andb negb]; try (intros k); rewrite ?app_nil_r; try reflexivity; try assumption.
        -- rewrite andb_true_r. destruct (k =? n)%nat; [reflexivity|rewrite app_nil_r; reflexivity].
        -- rewrite andb_false_r. reflexivity.
        -- rewrite <- !app_assoc. reflexivity.
    + eexists. split; [reflexivity|]. split; try congruence; unfold sees; rewrite F, P; cbn [andb]; try (intros k); rewrite ?app_nil_r; congruence.
  - eexists. split; [reflexivity|]. split; try congruence; unfold sees; rewrite F; cbn [andb]; try (intros k); rewrite ?app_nil_r; congruence.
Qed.
Lemma inv_usable s : inv s -> usable s.
Proof. intros [A B _ _] n E. rewrite A. unfold opens. rewrite (B n E). left. reflexivity. Qed.
Lemma says_inv m ok s s' : inv s -> says_one m ok s s' -> inv s'.
Proof.
  intros [A B C D] Y. split.
  - rewrite (y_open _ _ _ _ Y), A. unfold opens. rewrite (y_ptr _ _ _ _ Y). reflexivity.
  - intros n. rewrite (y_fp _ _ _ _ Y), (y_ptr _ _ _ _ Y). destruct (sees s m && negb ok); [discriminate|apply B].
  - intros n. rewrite (y_ptr _ _ _ _ Y), (y_new _ _ _ _ Y). apply C.
  - intros n. rewrite (y_new _ _ _ _ Y), (y_text _ _ _ _ Y). intros Hn. rewrite (D n Hn). destruct (sees s m && ok); [|reflexivity].
    destruct (g_fp s) as [[|k]|] eqn:F; try reflexivity. destruct (Nat.eqb_spec n k) as [->|]; [|reflexivity]. pose proof (C k (B k eq_refl)). lia.
Qed.

(** ** Opening *)
Definition warn_ok (w : option (msg * bool)) : Prop := forall x, w = Some x -> msg_ok (fst x).
Definition outcome_ok (o : outcome) : Prop := match o with NoFile m _ | NoUse m _ => msg_ok m | Opened => True end.
(** What opening does: [pre]: the warning that the old stream could not be closed. *)
Definition pre_of (w : option (msg * bool)) (s : lg) : list (msg * bool) :=
  match g_ptr s with None => [] | Some _ => match w with None => [] | Some x => [x] end end.
Record opens_one (level : Z) (w : option (msg * bool)) (s s' : lg) : Prop := mkOpens {
  o_level : g_level s' = Z.max 0 level; o_time : g_time s' = true; o_syslog : g_syslog s' = g_syslog s;
  o_ptr : g_ptr s' = Some (g_new s); o_new : g_new s' = S (g_new s);
  o_fp : w = None \/ (exists m, w = Some (m, true)) -> g_fp s' = Some (File (g_new s));
  o_text : forall k, k <> g_new s -> g_text s' k = g_text s k;
  o_here : w = None \/ (exists m, w = Some (m, true)) -> g_text s' (g_new s) = map dated (due (Z.max 0 level) (map fst (pre_of w s)));
  o_err : g_err s' = g_err s;
  o_sys : w = None -> g_sys s' = g_sys s }.
Lemma filter_alone n k l : filter (fun x => negb (x =? n)%nat) (k :: l) = if (k =? n)%nat then filter (fun x => negb (x =? n)%nat) l else k :: filter (fun x => negb (x =? n)%nat) l.
Proof. cbn [filter]. destruct (k =? n)%nat; reflexivity. Qed.
Lemma max0 level : (if 0 <? level then level else 0) = Z.max 0 level.
Proof. destruct (Z.ltb_spec 0 level); lia. Qed.

Lemma opened_ok level w s : inv s -> warn_ok w -> exists s', open_daemon_logfile level Opened w s = Ok s' /\ inv s' /\ opens_one level w s s'.
Proof.
  intros I W. pose proof I as [A B C D]. unfold open_daemon_logfile.
  set (s1 := log_set_file _ _ _ _).
  assert (F1 : g_fp s1 = Some (File (g_new s))) by reflexivity.
  assert (L1 : g_level s1 = Z.max 0 level) by (unfold s1; cbn [log_set_file g_level]; apply max0).
  assert (T1 : g_text s1 (g_new s) = []) by (unfold s1; cbn [log_set_file g_text]; apply D; lia).
  unfold close_old. change (g_ptr s1) with (g_ptr s). destruct (g_ptr s) as [old|] eqn:P.
  - assert (HN : (old < g_new s)%nat) by auto.
    assert (HO : g_open s1 = [g_new s; old]). { unfold s1. cbn [log_set_file g_open]. rewrite A. unfold opens. rewrite P. reflexivity. }
    unfold fclose. rewrite HO. replace (isin old [g_new s; old]) with true by (symmetry; apply isin_spec; right; left; reflexivity).
    rewrite !filter_alone. rewrite Nat.eqb_refl. destruct (Nat.eqb_spec (g_new s) old); [lia|]. cbn [filter bind].
    set (s2 := mkLg _ _ _ _ _ _ _ _ _ _).
    destruct w as [[m ok]|].
    + assert (U2 : usable s2). { intros k. change (g_fp s2) with (Some (File (g_new s))). intros [= <-]. left. reflexivity. }
      destruct (log_msg_ok m ok s2 (W _ eq_refl) U2) as (s3 & E & Y). rewrite E. cbn [bind].
      eexists. split; [reflexivity|].
      assert (TX : forall k, k <> g_new s -> g_text s3 k = g_text s k).
      { intros k Hk. rewrite (y_text _ _ _ _ Y). change (g_fp s2) with (Some (File (g_new s))). cbn match.
        apply Nat.eqb_neq in Hk. rewrite Hk. change (g_text s2 k) with (g_text s k).
        destruct (sees s2 m && ok); apply app_nil_r. }
      split.
      * split; unfold set_ptr; cbn [g_open g_fp g_ptr g_new g_text opens].
        -- rewrite (y_open _ _ _ _ Y). reflexivity.
        -- intros k. rewrite (y_fp _ _ _ _ Y). destruct (sees s2 m && negb ok); [discriminate|]. intros E2. injection E2 as <-. reflexivity.
        -- intros k [= <-]. rewrite (y_new _ _ _ _ Y). cbn. lia.
        -- intros k. rewrite (y_new _ _ _ _ Y). change (g_new s2) with (S (g_new s)). intros Hk. rewrite TX by lia. apply D. lia.
      * split; unfold set_ptr; cbn [g_open g_fp g_ptr g_new g_text g_level g_time g_syslog g_err g_sys].
        -- rewrite (y_level _ _ _ _ Y). exact L1.
        -- rewrite (y_time _ _ _ _ Y). reflexivity.
        -- rewrite (y_syslog _ _ _ _ Y). reflexivity.
        -- reflexivity.
        -- rewrite (y_new _ _ _ _ Y). reflexivity.
        -- intros [?|[m' [= _ ->]]]; [discriminate|]. rewrite (y_fp _ _ _ _ Y). rewrite andb_false_r. reflexivity.
        -- exact TX.
        -- intros [?|[m' [= <- ->]]]; [discriminate|]. rewrite (y_text _ _ _ _ Y). change (g_fp s2) with (Some (File (g_new s))). cbn match.
           rewrite Nat.eqb_refl. change (g_text s2 (g_new s)) with (g_text s1 (g_new s)). rewrite T1. unfold pre_of. rewrite P. cbn [map fst due filter].
           unfold sees. change (g_fp s2) with (Some (File (g_new s))). cbn match. change (g_level s2) with (g_level s1). rewrite L1.
           destruct (m_prio m <=? Z.max 0 level); reflexivity.
        -- rewrite (y_err _ _ _ _ Y). change (g_fp s2) with (Some (File (g_new s))). cbn match. destruct (sees s2 m && ok); rewrite app_nil_r; reflexivity.
        -- discriminate.
    + cbn [bind]. eexists. split; [reflexivity|]. split.
      * split; unfold set_ptr; cbn [g_open g_fp g_ptr g_new g_text opens].
        -- reflexivity.
        -- intros k E2. injection E2 as <-. reflexivity.
        -- intros k [= <-]. cbn. lia.
        -- intros k. change (g_new s2) with (S (g_new s)). intros Hk. change (g_text s2 k) with (g_text s k). apply D. lia.
      * split; unfold set_ptr; cbn [g_open g_fp g_ptr g_new g_text g_level g_time g_syslog g_err g_sys]; try reflexivity; try (exact L1).
        intros _. unfold pre_of. rewrite P. exact T1.
  - cbn [bind]. eexists. split; [reflexivity|]. split.
    + split; unfold set_ptr; cbn [g_open g_fp g_ptr g_new g_text opens].
      * unfold s1. cbn [log_set_file g_open]. rewrite A. unfold opens. rewrite P. reflexivity.
      * intros k. rewrite F1. intros [= <-]. reflexivity.
      * intros k [= <-]. cbn. lia.
      * intros k. change (g_new s1) with (S (g_new s)). intros Hk. change (g_text s1 k) with (g_text s k). apply D. lia.
    + split; unfold set_ptr; cbn [g_open g_fp g_ptr g_new g_text g_level g_time g_syslog g_err g_sys]; try reflexivity; try (exact L1).
      intros _. unfold pre_of. rewrite P. exact T1.
Qed.

(** [err:], from a state in which only the old stream is open. *)
Record dark (s s' : lg) : Prop := mkDark {
  d_fp : g_fp s' = None; d_ptr : g_ptr s' = None; d_open : g_open s' = []; d_syslog : g_syslog s' = g_syslog s; d_new : g_new s' = g_new s;
  d_text : forall k, g_text s' k = g_text s k; d_err : g_err s' = g_err s }.
Lemma err_ok w s : g_open s = opens s -> warn_ok w ->
  exists s', (do s1 <- close_old w (log_set_file None 0 false s); Ok (set_ptr None s1)) = Ok s' /\ dark s s' /\ (w = None -> g_sys s' = g_sys s).
Proof.
  intros A W. unfold close_old. change (g_ptr (log_set_file None 0 false s)) with (g_ptr s). destruct (g_ptr s) as [old|] eqn:P.
  - unfold fclose. cbn [log_set_file g_open g_fp g_level g_time g_syslog g_ptr g_new g_text g_err g_sys]. rewrite A. unfold opens. rewrite P.
    replace (isin old [old]) with true by (symmetry; apply isin_spec; left; reflexivity).
    rewrite filter_alone, Nat.eqb_refl. cbn [filter bind]. set (s2 := mkLg _ _ _ _ _ _ _ _ _ _).
    destruct w as [[m ok]|].
    + assert (U2 : usable s2) by (intros k; discriminate).
      destruct (log_msg_ok m ok s2 (W _ eq_refl) U2) as (s3 & E & Y). rewrite E. cbn [bind]. eexists. split; [reflexivity|].
      assert (Q : sees s2 m = false) by reflexivity. split; [|discriminate].
      split; unfold set_ptr; cbn [g_open g_fp g_ptr g_new g_text g_level g_time g_syslog g_err g_sys].
      * rewrite (y_fp _ _ _ _ Y), Q. reflexivity.
      * reflexivity.
      * rewrite (y_open _ _ _ _ Y). reflexivity.
      * rewrite (y_syslog _ _ _ _ Y). reflexivity.
      * rewrite (y_new _ _ _ _ Y). reflexivity.
      * intros k. rewrite (y_text _ _ _ _ Y), Q. cbn [andb]. apply app_nil_r.
      * rewrite (y_err _ _ _ _ Y), Q. cbn [andb]. apply app_nil_r.
    + cbn [bind]. eexists. split; [reflexivity|]. split; [split; reflexivity|reflexivity].
  - cbn [bind]. eexists. split; [reflexivity|]. split; [|reflexivity].
    split; try reflexivity. cbn. rewrite A. unfold opens. rewrite P. reflexivity.
Qed.
Lemma dark_inv s s' : (forall n, (g_new s <= n)%nat -> g_text s n = []) -> dark s s' -> inv s'.
Proof.
  intros D [F P O _ N T _]. split.
  - unfold opens. rewrite P. exact O.
  - rewrite F. discriminate.
  - rewrite P. discriminate.
  - intros n. rewrite N, T. apply D.
Qed.
(** Opening that fails: a warning where messages go now, then nothing. *)
Record fails_one (m : msg) (ok : bool) (w : option (msg * bool)) (s s' : lg) : Prop := mkFails {
  f_fp : g_fp s' = None; f_ptr : g_ptr s' = None; f_syslog : g_syslog s' = g_syslog s;
  f_text : forall k, g_text s' k = g_text s k ++ (if sees s m && ok then match g_fp s with Some (File n) => if (k =? n)%nat then [line s m] else [] | _ => [] end else []);
  f_err : g_err s' = g_err s ++ (if sees s m && ok then match g_fp s with Some Stderr => [line s m] | _ => [] end else []);
  f_sys : w = None -> g_sys s' = g_sys s ++ (if g_syslog s then [entry m] else []) ++ (if sees s m && negb ok then [(LOG_CRIT, stopped)] else []) }.
Lemma failed_ok level o m ok w s : o = NoFile m ok \/ o = NoUse m ok -> inv s -> msg_ok m -> warn_ok w ->
  exists s', open_daemon_logfile level o w s = Ok s' /\ inv s' /\ fails_one m ok w s s'.
Proof.
  intros HO I M W. pose proof I as [A B C D]. destruct HO as [->| ->]; unfold open_daemon_logfile.
  - destruct (log_msg_ok m ok s M (inv_usable s I)) as (s1 & E & Y). rewrite E. cbn [bind].
    pose proof (says_inv _ _ _ _ I Y) as [A1 B1 C1 D1].
    destruct (err_ok w s1 A1 W) as (s2 & E2 & K & KS). rewrite E2. exists s2. split; [reflexivity|]. split; [exact (dark_inv _ _ D1 K)|].
    destruct K as [F P O SY N T ER]. split; auto.
    + rewrite SY. apply (y_syslog _ _ _ _ Y).
    + intros k. rewrite T. apply (y_text _ _ _ _ Y).
    + rewrite ER. apply (y_err _ _ _ _ Y).
    + intros Hw. rewrite (KS Hw). apply (y_sys _ _ _ _ Y).
  - set (s0 := mkLg _ _ _ _ _ (g_new s :: g_open s) _ _ _ _).
    assert (U0 : usable s0). { intros k Hk. right. apply (inv_usable s I). exact Hk. }
    destruct (log_msg_ok m ok s0 M U0) as (s1 & E & Y). rewrite E. cbn [bind].
    unfold fclose. rewrite (y_open _ _ _ _ Y). change (g_open s0) with (g_new s :: g_open s).
    replace (isin (g_new s) (g_new s :: g_open s)) with true by (symmetry; apply isin_spec; left; reflexivity).
    rewrite filter_alone, Nat.eqb_refl. cbn [bind]. set (s2 := mkLg _ _ _ _ _ _ _ _ _ _).
    assert (A2 : g_open s2 = opens s2).
    { unfold s2, opens. cbn [g_open g_ptr]. rewrite (y_ptr _ _ _ _ Y), A. unfold opens. change (g_ptr s0) with (g_ptr s).
      destruct (g_ptr s) as [old|] eqn:P; [|reflexivity]. rewrite filter_alone. cbn [filter].
      pose proof (C old eq_refl). destruct (Nat.eqb_spec old (g_new s)); [lia|reflexivity]. }
    assert (TX : forall k, g_text s2 k = g_text s k ++ (if sees s m && ok then match g_fp s with Some (File n) => if (k =? n)%nat then [line s m] else [] | _ => [] end else []))
      by exact (y_text _ _ _ _ Y).
    destruct (err_ok w s2 A2 W) as (s3 & E2 & K & KS). rewrite E2. exists s3. split; [reflexivity|]. split.
    + apply (dark_inv s2); [|exact K]. intros k. unfold s2 at 1. cbn [g_new]. rewrite (y_new _ _ _ _ Y). change (g_new s0) with (S (g_new s)). intros Hk.
      rewrite TX, D by lia. destruct (sees s m && ok); [|reflexivity]. destruct (g_fp s) as [[|n]|] eqn:F; try reflexivity.
      pose proof (C n (B n eq_refl)). destruct (Nat.eqb_spec k n); [lia|reflexivity].
    + destruct K as [F P O SY N T ER]. split; auto.
      * rewrite SY. apply (y_syslog _ _ _ _ Y).
      * intros k. rewrite T. apply TX.
      * rewrite ER. apply (y_err _ _ _ _ Y).
      * intros Hw. rewrite (KS Hw). apply (y_sys _ _ _ _ Y).
Qed.
Lemma open_ok level o w s : inv s -> outcome_ok o -> warn_ok w -> exists s', open_daemon_logfile level o w s = Ok s' /\ inv s'.
Proof.
  intros I O W. destruct o as [m ok|m ok|].
  - destruct (failed_ok level _ m ok w s (or_introl eq_refl) I O W) as (s' & E & I' & _). exists s'. auto.
  - destruct (failed_ok level _ m ok w s (or_intror eq_refl) I O W) as (s' & E & I' & _). exists s'. auto.
  - destruct (opened_ok level w s I W) as (s' & E & I' & _). exists s'. auto.
Qed.
Lemma op_parts o w : op_ok (Reopen o w) -> outcome_ok o /\ warn_ok w.
Proof. destruct o; cbn; intros H; split; auto; try (apply H); intros x; apply H. Qed.
Lemma step_ok fg named level s x : inv s -> op_ok x -> exists s', step fg named level s x = Ok s' /\ inv s'.
Proof.
  intros I O. destruct x as [m ok|o w]; cbn [step].
  - destruct (log_msg_ok m ok s O (inv_usable s I)) as (s' & E & Y). exists s'. split; [exact E|exact (says_inv _ _ _ _ I Y)].
  - destruct (op_parts o w O) as (O1 & O2). destruct (named && negb fg); [|exists s; auto]. apply open_ok; auto.
Qed.
Lemma run_ok fg named level l : forall s, inv s -> Forall op_ok l -> exists s', run fg named level s l = Ok s' /\ inv s'.
Proof.
  induction l as [|x l IH]; intros s I O; cbn [run]; [exists s; auto|]. inversion_clear O as [|? ? O1 O2].
  destruct (step_ok fg named level s x I O1) as (s1 & E & I1). rewrite E. cbn [bind]. apply IH; auto.
Qed.
Lemma run_app fg named level l1 : forall l2 s, run fg named level s (l1 ++ l2) = (do s1 <- run fg named level s l1; run fg named level s1 l2).
Proof. induction l1 as [|x l1 IH]; intros l2 s; cbn [app run]; [reflexivity|]. destruct (step fg named level s x); cbn [bind]; auto. Qed.
Lemma first_inv dbg : inv (first dbg).
Proof. split; try reflexivity; discriminate. Qed.
Lemma settle_ok fg fac level name s : inv s -> name_fine name -> exists s', settle fg fac level name s = Ok s' /\ inv s'.
Proof.
  intros I N. unfold settle. destruct fg; [exists s; auto|].
  set (s1 := if 0 <? fac then _ else _).
  assert (I1 : inv s1) by (unfold s1; destruct (0 <? fac); [destruct I; split; auto|exact I]).
  destruct name as [o|].
  - apply open_ok; auto. intros x; discriminate.
  - eexists. split; [reflexivity|]. pose proof I1 as [A B C D]. split; auto. discriminate.
Qed.
Lemma msgs_ops l : msgs_ok l -> Forall op_ok (map (fun x => Msg (fst x) (snd x)) l).
Proof. intros H. apply Forall_map. exact H. Qed.

(** The whole of a life, in its parts. *)
Lemma life_ok dbg fg fac level name before l : msgs_ok before -> name_fine name -> Forall op_ok l ->
  let named := match name with Some _ => true | None => false end in
  exists s0 s1 s2, run fg named level (first dbg) (map (fun x => Msg (fst x) (snd x)) before) = Ok s0 /\ inv s0 /\
    settle fg fac level name s0 = Ok s1 /\ inv s1 /\ run fg named level s1 l = Ok s2 /\ inv s2 /\ life dbg fg fac level name before l = Ok s2.
Proof.
  intros H1 H2 H3 named. destruct (run_ok fg named level _ (first dbg) (first_inv dbg) (msgs_ops _ H1)) as (s0 & E0 & I0).
  destruct (settle_ok fg fac level name s0 I0 H2) as (s1 & E1 & I1).
  destruct (run_ok fg named level l s1 I1 H3) as (s2 & E2 & I2). exists s0, s1, s2. repeat (split; [assumption|]).
  unfold life. fold named. rewrite E0. cbn [bind]. rewrite E1. cbn [bind]. exact E2.
Qed.

(** ** Messages that are written *)
Lemma says_file fg named level n ms : forall s, inv s -> Forall msg_ok ms -> g_fp s = Some (File n) -> g_time s = true ->
  exists s', run fg named level s (says ms) = Ok s' /\ g_text s' n = g_text s n ++ map dated (due (g_level s) ms) /\
    (forall k, k <> n -> g_text s' k = g_text s k) /\ g_err s' = g_err s /\ g_fp s' = Some (File n) /\ inv s'.
Proof.
  induction ms as [|m ms IH]; intros s I M F T.
  - exists s. cbn [says map run due filter]. rewrite app_nil_r. auto 10.
  - inversion_clear M as [|? ? M1 M2]. unfold says. cbn [map run step]. fold (says ms).
    destruct (log_msg_ok m true s M1 (inv_usable s I)) as (s1 & E & Y). rewrite E. cbn [bind].
    assert (F1 : g_fp s1 = Some (File n)) by (rewrite (y_fp _ _ _ _ Y), andb_false_r; exact F).
    destruct (IH s1 (says_inv _ _ _ _ I Y) M2 F1) as (s2 & E2 & A & B & C & D & I2); [rewrite (y_time _ _ _ _ Y); exact T|].
    exists s2. split; [exact E2|]. rewrite A, C, (y_level _ _ _ _ Y), (y_text _ _ _ _ Y), (y_err _ _ _ _ Y). unfold sees, line. rewrite F, T, Nat.eqb_refl.
    cbn match. rewrite andb_true_r. split; [|split; [|split; [|auto]]].
    + unfold due. cbn [filter]. destruct (m_prio m <=? g_level s); cbn [map]; rewrite ?app_nil_r, <- ?app_assoc; reflexivity.
    + intros k Hk. rewrite (B k Hk), (y_text _ _ _ _ Y), F. apply Nat.eqb_neq in Hk. rewrite Hk. destruct (sees s m && true); apply app_nil_r.
    + destruct (m_prio m <=? g_level s); apply app_nil_r.
Qed.
(** On the terminal *)
Lemma says_terminal named level l : forall s, inv s -> Forall op_ok l -> writable l -> g_fp s = Some Stderr -> g_time s = false -> g_syslog s = false ->
  exists s', run true named level s l = Ok s' /\ g_err s' = g_err s ++ map undated (due (g_level s) (spoken l)) /\
    (forall k, g_text s' k = g_text s k) /\ g_sys s' = g_sys s /\ g_fp s' = Some Stderr /\ g_time s' = false /\ g_syslog s' = false /\ g_level s' = g_level s /\ g_open s' = g_open s.
Proof.
  induction l as [|x l IH]; intros s I O W F T S.
  - exists s. cbn [run spoken flat_map due filter map]. rewrite app_nil_r. auto 12.
  - inversion_clear O as [|? ? O1 O2]. assert (W2 : writable l) by (intros m H; apply (W m); right; exact H).
    destruct x as [m ok|o w]; cbn [run step].
    + assert (ok = true) as -> by (destruct ok; [reflexivity|destruct (W m); left; reflexivity]).
      destruct (log_msg_ok m true s O1 (inv_usable s I)) as (s1 & E & Y). rewrite E. cbn [bind].
      destruct (IH s1 (says_inv _ _ _ _ I Y) O2 W2) as (s2 & E2 & A & B & C & D & G & H & J & K);
        [rewrite (y_fp _ _ _ _ Y), andb_false_r; exact F|rewrite (y_time _ _ _ _ Y); exact T|rewrite (y_syslog _ _ _ _ Y); exact S|].
      exists s2. split; [exact E2|]. rewrite A, C, J, K, (y_level _ _ _ _ Y), (y_err _ _ _ _ Y), (y_sys _ _ _ _ Y), (y_open _ _ _ _ Y), S. unfold sees, line. rewrite F, T.
      cbn match. rewrite andb_true_r, andb_false_r. split; [|split; [|rewrite app_nil_r; auto 10]].
      * unfold spoken. cbn [flat_map app]. fold (spoken l). unfold due. cbn [filter]. destruct (m_prio m <=? g_level s); cbn [map]; rewrite ?app_nil_r, <- ?app_assoc; reflexivity.
      * intros k. rewrite B, (y_text _ _ _ _ Y), F. destruct (sees s m && true); apply app_nil_r.
    + rewrite andb_false_r. cbn [bind]. apply IH; auto.
Qed.

(** ** The system's log *)
Lemma list_eqb_eq a b : list_eqb a b = true <-> a = b.
Proof.
  unfold list_eqb. revert b. induction a as [|x a IH]; intros [|y b]; cbn; try (split; congruence).
  rewrite andb_true_iff in *. rewrite andb_true_iff. split.
  - intros (A & B & C). apply Z.eqb_eq in B. subst. f_equal. apply IH. rewrite andb_true_iff. auto.
  - intros E. injection E as -> E. specialize (proj2 (IH b) E). rewrite andb_true_iff. intros [A B].
    rewrite Z.eqb_refl. auto.
Qed.
Lemma list_eqb_refl a : list_eqb a a = true.
Proof. apply list_eqb_eq. reflexivity. Qed.
Lemma bare_not m : list_eqb (bare m) stopped = false.
Proof.
  apply Bool.not_true_is_false. intros H. apply list_eqb_eq in H. apply (f_equal (@rev Z)) in H. unfold bare in H. rewrite rev_app_distr in H. discriminate.
Qed.
Lemma reported_app a b : reported (a ++ b) = reported a ++ reported b.
Proof. apply filter_app. Qed.
Lemma alarms_app a b : alarms (a ++ b) = (alarms a + alarms b)%nat.
Proof. unfold alarms. rewrite filter_app, app_length. reflexivity. Qed.
Definition wants (b : bool) (l : list msg) : list (Z * list Z) := if b then map entry l else [].
Lemma wants_app b l1 l2 : wants b (l1 ++ l2) = wants b l1 ++ wants b l2.
Proof. unfold wants. destruct b; [apply map_app|reflexivity]. Qed.
Lemma one_report (b : bool) m (x : bool) : reported ((if b then [entry m] else []) ++ (if x then [(LOG_CRIT, stopped)] else [])) = wants b [m].
Proof.
  rewrite reported_app. unfold reported, wants. destruct b, x; cbn [filter snd map]; rewrite ?list_eqb_refl; cbn [negb filter snd entry app];
    unfold entry; cbn [snd]; rewrite ?bare_not; reflexivity.
Qed.
Lemma step_syslog fg named level s x : inv s -> op_ok x -> closable [x] -> named && negb fg = true ->
  exists s', step fg named level s x = Ok s' /\ inv s' /\ g_syslog s' = g_syslog s /\ reported (g_sys s') = reported (g_sys s) ++ wants (g_syslog s) (said [x]).
Proof.
  intros I O CL NF. destruct x as [m ok|o w]; cbn [step].
  - destruct (log_msg_ok m ok s O (inv_usable s I)) as (s' & E & Y). exists s'. split; [exact E|]. split; [exact (says_inv _ _ _ _ I Y)|].
    rewrite (y_syslog _ _ _ _ Y), (y_sys _ _ _ _ Y), reported_app, one_report. split; reflexivity.
  - rewrite NF. rewrite (CL o w (or_introl eq_refl)) in *. destruct (op_parts _ _ O) as (O1 & O2).
    destruct o as [m ok|m ok|].
    + destruct (failed_ok level _ m ok None s (or_introl eq_refl) I O1 O2) as (s' & E & I' & Y). exists s'. split; [exact E|]. split; [exact I'|].
      rewrite (f_syslog _ _ _ _ _ Y), (f_sys _ _ _ _ _ Y eq_refl), reported_app, one_report. split; reflexivity.
    + destruct (failed_ok level _ m ok None s (or_intror eq_refl) I O1 O2) as (s' & E & I' & Y). exists s'. split; [exact E|]. split; [exact I'|].
      rewrite (f_syslog _ _ _ _ _ Y), (f_sys _ _ _ _ _ Y eq_refl), reported_app, one_report. split; reflexivity.
    + destruct (opened_ok level None s I O2) as (s' & E & I' & Y). exists s'. split; [exact E|]. split; [exact I'|].
      rewrite (o_syslog _ _ _ _ Y), (o_sys _ _ _ _ Y eq_refl). unfold said, wants. cbn [flat_map warning app map]. split; [reflexivity|].
      destruct (g_syslog s); rewrite app_nil_r; reflexivity.
Qed.
Lemma run_syslog fg named level l : forall s, inv s -> Forall op_ok l -> closable l -> named && negb fg = true \/ unasked l ->
  exists s', run fg named level s l = Ok s' /\ g_syslog s' = g_syslog s /\ reported (g_sys s') = reported (g_sys s) ++ wants (g_syslog s) (said l).
Proof.
  induction l as [|x l IH]; intros s I O C N; cbn [run].
  - exists s. split; [reflexivity|]. split; [reflexivity|]. unfold wants, said. cbn [flat_map map]. destruct (g_syslog s); rewrite app_nil_r; reflexivity.
  - inversion_clear O as [|? ? O1 O2].
    assert (C1 : closable [x]) by (intros o w [->|[]]; apply (C o w); left; reflexivity).
    assert (C2 : closable l) by (intros o w H; apply (C o w); right; exact H).
    assert (N2 : named && negb fg = true \/ unasked l) by (destruct N as [N|N]; [left; exact N|right; intros o w H; apply (N o w); right; exact H]).
    assert (ST : exists s', step fg named level s x = Ok s' /\ inv s' /\ g_syslog s' = g_syslog s /\ reported (g_sys s') = reported (g_sys s) ++ wants (g_syslog s) (said [x])).
    { destruct N as [N|N]; [apply step_syslog; auto|]. destruct x as [m ok|o w]; [|destruct (N o w); left; reflexivity].
      change (step fg named level s (Msg m ok)) with (step false true level s (Msg m ok)). apply step_syslog; auto. }
    destruct ST as (s1 & E & I1 & A & B). rewrite E. cbn [bind].
    destruct (IH s1 I1 O2 C2 N2) as (s2 & E2 & A2 & B2). exists s2. split; [exact E2|]. split; [congruence|].
    rewrite B2, B, A, <- app_assoc, <- wants_app. unfold said. cbn [flat_map]. rewrite app_nil_r. reflexivity.
Qed.

(** ** Silence *)
Lemma run_silent fg named level l : forall s, inv s -> Forall op_ok l -> unasked l -> g_fp s = None ->
  exists s', run fg named level s l = Ok s' /\ (forall k, g_text s' k = g_text s k) /\ g_err s' = g_err s /\ g_fp s' = None.
Proof.
  induction l as [|x l IH]; intros s I O N F; cbn [run]; [exists s; auto|].
  inversion_clear O as [|? ? O1 O2]. destruct x as [m ok|o w]; [|destruct (N o w); left; reflexivity].
  assert (N2 : unasked l) by (intros o w H; apply (N o w); right; exact H). cbn [step].
  destruct (log_msg_ok m ok s O1 (inv_usable s I)) as (s1 & E & Y). rewrite E. cbn [bind].
  assert (Q : sees s m = false) by (unfold sees; rewrite F; reflexivity).
  destruct (IH s1 (says_inv _ _ _ _ I Y) O2 N2) as (s2 & E2 & A & B & C); [rewrite (y_fp _ _ _ _ Y), Q; exact F|].
  exists s2. split; [exact E2|]. split; [|split; [|exact C]].
  - intros k. rewrite A, (y_text _ _ _ _ Y), Q. apply app_nil_r.
  - rewrite B, (y_err _ _ _ _ Y), Q. apply app_nil_r.
Qed.

(** ** Threads *)
Definition pending (level : Z) (p : pc) : list (list Z) :=
  match p with Ready m => if m_prio m <=? level then [dated m] else [] | Tested m | Loaded m _ => [dated m] | Done => [] end.
Definition pending_all (level : Z) (N : nat) (th : nat -> pc) : list (list Z) := flat_map (fun t => pending level (th t)) (seq 0 N).
Lemma pend_same level l t p (th : nat -> pc) : ~ In t l -> flat_map (fun k => pending level (set_pc t p th k)) l = flat_map (fun k => pending level (th k)) l.
Proof.
  induction l as [|k l IH]; intros H; [reflexivity|]. cbn [flat_map]. rewrite IH by (intros X; apply H; right; exact X).
  unfold set_pc. destruct (Nat.eqb_spec k t) as [->|]; [destruct H; left; reflexivity|reflexivity].
Qed.
Lemma pend_set level l t p (th : nat -> pc) : NoDup l -> In t l ->
  Permutation (pending level (th t) ++ flat_map (fun k => pending level (set_pc t p th k)) l) (pending level p ++ flat_map (fun k => pending level (th k)) l).
Proof.
  induction l as [|k l IH]; intros ND H; [destruct H|]. inversion_clear ND as [|? ? N1 N2]. cbn [flat_map].
  destruct (Nat.eq_dec k t) as [->|NE].
  - rewrite pend_same by exact N1. unfold set_pc at 1. rewrite Nat.eqb_refl. rewrite !app_assoc. apply Permutation_app_tail. apply Permutation_app_comm.
  - destruct H as [->|H]; [congruence|]. unfold set_pc at 1. apply Nat.eqb_neq in NE. rewrite NE. 
    etransitivity; [apply Permutation_app_swap_app|]. etransitivity; [apply Permutation_app_head, IH; auto|]. apply Permutation_app_swap_app.
Qed.
Record calm (level : Z) (N n : nat) (base all : list (list Z)) (w : world) : Prop := mkCalm {
  c_main : w_main w = []; c_fp : g_fp (w_lg w) = Some (File n); c_open : In n (g_open (w_lg w)); c_level : g_level (w_lg w) = level;
  c_time : g_time (w_lg w) = true;
  c_msg : forall t m, w_th w t = Ready m \/ w_th w t = Tested m \/ (exists d, w_th w t = Loaded m d) -> msg_ok m /\ (t < N)%nat;
  c_load : forall t m d, w_th w t = Loaded m d -> d = Some (File n);
  c_text : Permutation (g_text (w_lg w) n ++ pending_all level N (w_th w)) (base ++ all) }.
Lemma perm_same level N t p th X : (t < N)%nat -> pending level (th t) = pending level p ->
  Permutation (X ++ pending_all level N (set_pc t p th)) (X ++ pending_all level N th).
Proof.
  intros H E. apply Permutation_app_head. unfold pending_all.
  pose proof (pend_set level (seq 0 N) t p th (seq_NoDup N 0)) as K. rewrite E in K. apply (Permutation_app_inv_l (pending level p)). apply K. apply in_seq. lia.
Qed.
Lemma turn_calm level N n base all w x : calm level N n base all w -> (forall t ok, x = Thread t ok -> ok = true) ->
  exists w', turn_step level w x = Ok w' /\ calm level N n base all w'.
Proof.
  intros [A B C D T M L P] OK. destruct x as [|t ok]; cbn [turn_step].
  - rewrite A. exists w. split; [reflexivity|]. split; auto.
  - rewrite (OK t ok eq_refl). clear OK ok. destruct (w_th w t) as [m|m|m d|] eqn:Q.
    + destruct (M t m (or_introl Q)) as (M1 & M2). rewrite (strings_ok m M1). cbn [bind snd].
      change (if g_syslog (w_lg w) then to_syslog (m_prio m) (bare m) (w_lg w) else w_lg w) with (syslogged m (w_lg w)).
      destruct (syslogged_same m (w_lg w)) as (A1 & A2 & A3 & A4 & A5 & A6 & A7 & A8 & A9 & A10). rewrite A1, A2, B, D.
      eexists. split; [reflexivity|]. split; cbn [w_lg w_th w_main]; rewrite ?A1, ?A2, ?A3, ?A6, ?A8; auto.
      * intros k m'. unfold set_pc. destruct (Nat.eqb_spec k t) as [->|]; [|apply M].
        destruct (m_prio m <=? level); intros [H|[H|[d H]]]; try discriminate. injection H as <-. auto.
      * intros k m' d. unfold set_pc. destruct (Nat.eqb_spec k t) as [->|]; [|apply L]. destruct (m_prio m <=? level); discriminate.
      * etransitivity; [|exact P]. apply perm_same; [exact M2|]. rewrite Q. cbn [pending]. destruct (m_prio m <=? level); reflexivity.
    + destruct (M t m (or_intror (or_introl Q))) as (M1 & M2). eexists. split; [reflexivity|]. split; cbn [w_lg w_th w_main]; auto.
      * intros k m'. unfold set_pc. destruct (Nat.eqb_spec k t) as [->|]; [|apply M]. intros [H|[H|[d H]]]; try discriminate. injection H as <- _. auto.
      * intros k m' d. unfold set_pc. destruct (Nat.eqb_spec k t) as [->|]; [|apply L]. intros [= _ <-]. exact B.
      * etransitivity; [|exact P]. apply perm_same; [exact M2|]. rewrite Q. reflexivity.
    + destruct (M t m (or_intror (or_intror (ex_intro _ d Q)))) as (M1 & M2). rewrite (L t m d Q). rewrite (strings_ok m M1). cbn [bind print].
      rewrite (proj2 (isin_spec n _) C), T. cbn [bind]. eexists. split; [reflexivity|]. split; cbn [w_lg w_th w_main g_fp g_open g_level g_time]; auto.
      * intros k m'. unfold set_pc. destruct (Nat.eqb_spec k t) as [->|]; [|apply M]. intros [H|[H|[d' H]]]; discriminate.
      * intros k m' d'. unfold set_pc. destruct (Nat.eqb_spec k t) as [->|]; [discriminate|apply L].
      * cbn [g_text]. rewrite Nat.eqb_refl. cbn [andb]. etransitivity; [|exact P]. rewrite <- app_assoc. apply Permutation_app_head. unfold pending_all.
        pose proof (pend_set level (seq 0 N) t Done (w_th w) (seq_NoDup N 0)) as K. rewrite Q in K. apply K. apply in_seq. lia.
    + exists w. split; [reflexivity|]. split; auto.
Qed.
Lemma turns_calm level N n base all l : forall w, calm level N n base all w -> (forall t, ~ In (Thread t false) l) ->
  exists w', turns level w l = Ok w' /\ calm level N n base all w'.
Proof.
  induction l as [|x l IH]; intros w C H; cbn [turns]; [exists w; auto|].
  destruct (turn_calm level N n base all w x C) as (w1 & E & C1).
  { intros t ok ->. destruct ok; [reflexivity|]. destruct (H t). left. reflexivity. }
  rewrite E. cbn [bind]. apply IH; [exact C1|]. intros t HH. apply (H t). right. exact HH.
Qed.
