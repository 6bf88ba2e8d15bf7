(** Proofs about FnameModel. *)
From Coq Require Import String.
From Verif Require Import Base BaseProof Chars Fmt LexModel StrModel FnameModel FnameSpec.
From Verif Require StrSpec StrProof.
Local Open Scope nat_scope.

(** ** The buffer *)
Lemma blit_pre (buf e t : list Z) p : firstn p buf = e -> p = length e -> p + length t <= length buf ->
  exists buf', blit buf p t = Ok buf' /\ firstn (p + length t) buf' = e ++ t /\ length buf' = length buf
    /\ forall k, p + length t <= k -> skipn k buf' = skipn k buf.
Proof.
  intros F P L. unfold blit. destruct (Nat.leb_spec (p + length t) (length buf)); [|lia].
  eexists. split; [reflexivity|].
  assert (firstn p buf ++ t ++ skipn (p + length t) buf = (e ++ t) ++ skipn (p + length t) buf) as -> by (rewrite F, app_assoc; reflexivity).
  assert (length (e ++ t) = p + length t) as LE by (rewrite app_length; lia).
  split; [|split].
  - rewrite firstn_app, LE, Nat.sub_diag, firstn_O, app_nil_r. apply firstn_all2. lia.
  - rewrite app_length, LE, skipn_length. lia.
  - intros k K. rewrite skipn_app, skipn_all2 by lia. rewrite LE. cbn [app].
    rewrite skipn_skipn_add. f_equal. lia.
Qed.

Definition holds (size : nat) (buf0 buf e : list Z) : Prop :=
  firstn (length e) buf = e /\ length buf = length buf0 /\ size <= length buf0 /\ length e < size
  /\ forall k, size <= k -> skipn k buf = skipn k buf0.

Lemma ctype_graph iso c : gchar iso c -> ctype iso isgraph c = Ok (isgraph c).
Proof.
  intros [R I]. unfold ctype, schar. destruct (Z.ltb_spec c 128).
  - destruct (Z.leb_spec 0 c); [reflexivity|lia].
  - destruct (Z.leb_spec 0 (c - 256)); [lia|]. destruct iso; [specialize (I eq_refl); lia|].
    unfold isgraph. destruct (Z.leb_spec c 126); [lia|]. rewrite andb_false_r. reflexivity.
Qed.

Lemma clean_char_eq c : clean_char c = if negb (isgraph c) || (c =? SLASH)%Z then UNDERSCORE else c.
Proof. unfold clean_char, isgraph, SLASH, UNDERSCORE. destruct ((33 <=? c)%Z && (c <=? 126)%Z), (c =? 47)%Z; reflexivity. Qed.

Lemma get_mid (e s r : list Z) c : get (e ++ c :: r) (length e) = Ok c.
Proof. unfold get. rewrite nth_error_app2, Nat.sub_diag by lia. reflexivity. Qed.

Lemma put_mid (e r : list Z) c d : put (e ++ c :: r) (length e) d = Ok (e ++ d :: r).
Proof.
  unfold put, blit. cbn [length]. destruct (Nat.leb_spec (length e + 1) (length (e ++ c :: r))) as [|X]; [|rewrite app_length in X; cbn in X; lia].
  f_equal. rewrite firstn_app, Nat.sub_diag, firstn_O, app_nil_r, firstn_all. cbn [app]. do 2 f_equal.
  rewrite skipn_app, skipn_all2 by lia. cbn [app]. replace (length e + 1 - length e) with 1 by lia. reflexivity.
Qed.

Lemma sanitize_ok iso : forall s e r n, Forall (gchar iso) s -> length s < n ->
  sanitize_file_string n iso (e ++ s ++ NUL :: r) (length e) = Ok (e ++ clean s ++ NUL :: r).
Proof.
  induction s as [|c s IH]; intros e r n G N; (destruct n as [|n]; [cbn in N; lia|]); cbn [sanitize_file_string app].
  - rewrite (get_mid e [] r). cbn [bind]. reflexivity.
  - rewrite (get_mid e []). cbn [bind]. apply Forall_inv_tail in G as G2. apply Forall_inv in G. pose proof G as [R _].
    destruct (Z.eqb_spec c NUL) as [->|_]; [unfold NUL in R; lia|].
    rewrite (ctype_graph _ _ G). cbn [bind]. cbn [clean map]. rewrite clean_char_eq.
    assert (forall d, e ++ d :: s ++ NUL :: r = (e ++ [d]) ++ s ++ NUL :: r) as SH by (intros; rewrite <- app_assoc; reflexivity).
    destruct (negb (isgraph c) || (c =? SLASH)%Z).
    + rewrite put_mid. cbn [bind]. rewrite SH. replace (S (length e)) with (length (e ++ [UNDERSCORE])) by (rewrite app_length; cbn; lia).
      rewrite IH by (auto; cbn in N; lia). rewrite <- app_assoc. reflexivity.
    + cbn [bind]. rewrite SH. replace (S (length e)) with (length (e ++ [c])) by (rewrite app_length; cbn; lia).
      rewrite IH by (auto; cbn in N; lia). rewrite <- app_assoc. reflexivity.
Qed.

(** a part is written, or the room is used up *)
Definition part_done (size : nat) (buf0 e t : list Z) (r : res (list Z * nat * Z)) : Prop :=
  exists buf' pdst n, r = Ok (buf', pdst, n)
  /\ (if length (e ++ t) <? size
      then holds size buf0 buf' (e ++ t) /\ pdst = length (e ++ t) /\ n = (Z.of_nat size - Z.of_nat (length (e ++ t)))%Z
      else holds size buf0 buf' e /\ pdst = length e /\ (n <= 0)%Z).

Lemma holds_app size buf0 buf e t x : holds size buf0 buf e -> length (e ++ t ++ x) <= size ->  length (e ++ t) < size ->
  exists buf', blit buf (length e) (t ++ x) = Ok buf' /\ holds size buf0 buf' (e ++ t)
  /\ firstn (length (e ++ t ++ x)) buf' = e ++ t ++ x.
Proof.
  intros (A & B & C & D & E) L L2. rewrite app_length in L.
  destruct (blit_pre buf e (t ++ x) (length e)) as (buf' & E1 & E2 & E3 & E4); auto; [lia|].
  exists buf'. split; auto. rewrite <- app_length in E2. split; [|exact E2].
  split; [|split; [congruence|split; [auto|split; [lia|]]]].
  - assert (firstn (length (e ++ t)) (firstn (length (e ++ t ++ x)) buf') = firstn (length (e ++ t)) buf') as <-.
    { rewrite firstn_firstn. f_equal. rewrite !app_length. lia. }
    rewrite E2. rewrite app_assoc, firstn_app, Nat.sub_diag, firstn_O, app_nil_r, firstn_all. reflexivity.
  - intros k K. rewrite E4 by lia. auto.
Qed.

Lemma holds_same size buf0 buf e t : holds size buf0 buf (e ++ t) -> holds size buf0 buf e.
Proof.
  intros (A & B & C & D & E). rewrite app_length in D. unfold holds; repeat (match goal with |- _ /\ _ => split end); auto; try lia.
  assert (firstn (length e) (firstn (length (e ++ t)) buf) = firstn (length e) buf) as <-.
  { rewrite firstn_firstn. f_equal. rewrite app_length. lia. }
  rewrite A, firstn_app, Nat.sub_diag, firstn_O, app_nil_r, firstn_all. reflexivity.
Qed.

Lemma holds_trunc size buf0 buf e t : holds size buf0 buf e -> length t = size - length e ->
  exists buf', blit buf (length e) t = Ok buf' /\ holds size buf0 buf' e.
Proof.
  intros (A & B & C & D & E) L.
  destruct (blit_pre buf e t (length e)) as (buf' & E1 & E2 & E3 & E4); auto; [lia|].
  exists buf'. split; auto. unfold holds; repeat (match goal with |- _ /\ _ => split end); auto; try congruence.
  - assert (firstn (length e) (firstn (length e + length t) buf') = firstn (length e) buf') as <-.
    { rewrite firstn_firstn. f_equal. lia. }
    rewrite E2, firstn_app, Nat.sub_diag, firstn_O, app_nil_r, firstn_all. reflexivity.
  - intros k K. rewrite E4 by lia. auto.
Qed.

Lemma plain_done size buf0 buf e t : holds size buf0 buf e ->
  part_done size buf0 e t (plain_part buf (length e) (Z.of_nat size - Z.of_nat (length e)) t).
Proof.
  intros H. pose proof H as (A & B & C & D & E). unfold plain_part, part_done.
  destruct (Z.ltb_spec 0 (Z.of_nat size - Z.of_nat (length e) - Z.of_nat (length t))).
  - destruct (holds_app size buf0 buf e t [] H) as (buf' & E1 & E2 & _); try (rewrite ?app_nil_r, app_length; lia).
    rewrite app_nil_r in E1. rewrite E1. cbn [bind]. eexists _, _, _. split; [reflexivity|].
    destruct (Nat.ltb_spec (length (e ++ t)) size) as [|X]; [|rewrite app_length in X; lia].
    split; auto. rewrite app_length. split; auto. lia.
  - eexists _, _, _. split; [reflexivity|]. destruct (Nat.ltb_spec (length (e ++ t)) size) as [X|]; [rewrite app_length in X; lia|]. auto.
Qed.

Lemma time_done size buf0 buf e t : t <> [] -> holds size buf0 buf e ->
  part_done size buf0 e t (time_part buf (length e) (Z.of_nat size - Z.of_nat (length e)) t).
Proof.
  intros NE H. pose proof H as (A & B & C & D & E). unfold time_part, part_done.
  destruct (Z.ltb_spec (Z.of_nat (length t)) (Z.of_nat size - Z.of_nat (length e))).
  - destruct (holds_app size buf0 buf e t [NUL] H) as (buf' & E1 & E2 & _); try (rewrite !app_length; cbn; lia).
    unfold cstr. rewrite E1. cbn [bind]. destruct (Nat.eqb_spec (length t) 0) as [X|_]; [destruct t; [congruence|discriminate]|].
    eexists _, _, _. split; [reflexivity|].
    destruct (Nat.ltb_spec (length (e ++ t)) size) as [|X]; [|rewrite app_length in X; lia].
    split; auto. rewrite app_length. split; auto. lia.
  - eexists _, _, _. split; [reflexivity|]. destruct (Nat.ltb_spec (length (e ++ t)) size) as [X|]; [rewrite app_length in X; lia|].
    split; auto. split; auto. lia.
Qed.

Lemma clean_length s : length (clean s) = length s.
Proof. apply map_length. Qed.

(** after a terminated string was written, sanitizing it *)
Lemma clean_done iso size buf0 buf e t : Forall (gchar iso) t -> holds size buf0 buf e -> length (e ++ t) < size ->
  exists buf1, blit buf (length e) (cstr t) = Ok buf1
  /\ exists buf2, sanitize_file_string (S (length buf)) iso buf1 (length e) = Ok buf2 /\ holds size buf0 buf2 (e ++ clean t).
Proof.
  intros G H L. pose proof H as (A & B & C & D & E).
  destruct (holds_app size buf0 buf e t [NUL] H) as (buf1 & E1 & E2 & E3); auto.
  { rewrite !app_length in *. cbn. lia. }
  exists buf1. split; auto. pose proof E2 as (A2 & B2 & C2 & D2 & E2').
  rewrite <- (firstn_skipn (length (e ++ t ++ [NUL])) buf1). rewrite E3. rewrite <- !app_assoc. cbn [app].
  set (r := skipn (length (e ++ t ++ [NUL])) buf1).
  rewrite sanitize_ok; auto; [|rewrite app_length in L; lia].
  eexists. split; [reflexivity|].
  assert (length (e ++ t ++ [NUL]) = length e + length t + 1) as LL by (rewrite !app_length; cbn; lia).
  assert (length r = length buf1 - (length e + length t + 1)) as LR by (unfold r; rewrite skipn_length, LL; reflexivity).
  rewrite app_length in L.
  unfold holds; repeat (match goal with |- _ /\ _ => split end); auto.
  - rewrite app_assoc, firstn_app, Nat.sub_diag, firstn_O, app_nil_r, firstn_all. reflexivity.
  - rewrite !app_length, clean_length. cbn [length]. rewrite LR. lia.
  - rewrite app_length, clean_length. exact L.
  - intros k K. rewrite <- (E k K), app_assoc.
    rewrite skipn_app, skipn_all2; [|rewrite app_length, clean_length; lia]. cbn [app].
    rewrite app_length, clean_length. replace (k - (length e + length t)) with (S (k - (length e + length t + 1))) by lia.
    cbn [skipn]. unfold r. rewrite skipn_skipn_add, LL. replace (k - (length e + length t + 1) + (length e + length t + 1)) with k by lia.
    rewrite (E2' k K). rewrite (E k K). reflexivity.
Qed.

Lemma copy_done iso size buf0 buf e s : Forall (gchar iso) s -> holds size buf0 buf e ->
  part_done size buf0 e (clean s) (copy_part iso buf (length e) (Z.of_nat size - Z.of_nat (length e)) s).
Proof.
  intros G H. pose proof H as (A & B & C & D & E). unfold copy_part, part_done. rewrite !app_length, clean_length.
  destruct (Z.ltb_spec 0 (Z.of_nat size - Z.of_nat (length e) - Z.of_nat (length s))).
  - destruct (clean_done iso size buf0 buf e s G H) as (b1 & E1 & b2 & E2 & E3); [rewrite app_length; lia|].
    rewrite E1. cbn [bind]. rewrite E2. cbn [bind]. eexists _, _, _. split; [reflexivity|].
    destruct (Nat.ltb_spec (length e + length s) size); [|lia]. split; auto. split; auto. lia.
  - eexists _, _, _. split; [reflexivity|]. destruct (Nat.ltb_spec (length e + length s) size); [lia|]. auto.
Qed.

Lemma print_done iso cl size buf0 buf e s : (cl = true -> Forall (gchar iso) s) -> holds size buf0 buf e ->
  part_done size buf0 e (if cl then clean s else s)
    (print_part iso cl buf (length e) (Z.of_nat size - Z.of_nat (length e)) s).
Proof.
  intros G H. pose proof H as (A & B & C & D & E). unfold print_part, part_done, vsnprintf.
  assert (length (if cl then clean s else s) = length s) as LS by (destruct cl; auto using clean_length).
  rewrite app_length, LS.
  replace (Z.to_nat (Z.of_nat size - Z.of_nat (length e))) with (size - length e) by lia.
  destruct (Nat.eqb_spec (size - length e) 0); [lia|].
  destruct (Nat.ltb_spec (length e + length s) size) as [L|L].
  - rewrite firstn_all2 by lia. destruct cl.
    + destruct (clean_done iso size buf0 buf e s (G eq_refl) H) as (b1 & E1 & b2 & E2 & E3); [rewrite app_length; lia|].
      unfold cstr in E1. rewrite E1. cbn [bind]. destruct (Z.leb_spec (Z.of_nat size - Z.of_nat (length e)) (Z.of_nat (length s))); [lia|].
      rewrite E2. cbn [bind]. eexists _, _, _. split; [reflexivity|]. split; auto. split; auto. lia.
    + destruct (holds_app size buf0 buf e s [NUL] H) as (b1 & E1 & E2 & _); try (rewrite !app_length; cbn; lia).
      rewrite E1. cbn [bind]. destruct (Z.leb_spec (Z.of_nat size - Z.of_nat (length e)) (Z.of_nat (length s))); [lia|].
      cbn [bind]. eexists _, _, _. split; [reflexivity|]. split; auto. split; auto. lia.
  - destruct (holds_trunc size buf0 buf e (firstn (size - length e - 1) s ++ [NUL]) H) as (b1 & E1 & E2).
    { rewrite app_length, firstn_length. cbn. lia. }
    rewrite E1. cbn [bind]. destruct (Z.leb_spec (Z.of_nat size - Z.of_nat (length e)) (Z.of_nat (length s))); [|lia].
    eexists _, _, _. split; [reflexivity|]. split; auto. split; auto. lia.
Qed.

(** ** Specifiers *)
Lemma base_name_spec : forall s acc, base_name acc s = acc /\ ~ In 47%Z s \/ exists d c, s = d ++ 47%Z :: c /\ ~ In 47%Z c /\ base_name acc s = c.
Proof.
  induction s as [|x s IH]; intros acc; cbn [base_name]; [left; auto|].
  destruct (Z.eqb_spec x SLASH) as [->|N].
  - right. destruct (IH s) as [[E NI]|(d & c & E & NI & B)].
    + exists [], s. auto.
    + exists (SLASH :: d), c. rewrite E at 1. auto.
  - destruct (IH acc) as [[E NI]|(d & c & E & NI & B)].
    + left. split; auto. intros [X|X]; auto.
    + right. exists (x :: d), c. rewrite E at 1. auto.
Qed.

Lemma base_name_last p : last_component p (base_name p p).
Proof.
  destruct (base_name_spec p p) as [[E NI]|(d & c & E & NI & B)].
  - left. auto.
  - right. exists d. rewrite B. auto.
Qed.

Lemma last_component_in p c x : last_component p c -> In x c -> In x p.
Proof. intros [[-> _]|(d & -> & _)] I; auto. apply in_or_app. right. right. auto. Qed.

Lemma digit_gchar iso c : isdigit c = true -> gchar iso c.
Proof. unfold isdigit, gchar. intros H. apply andb_prop in H. destruct H as [A B]. apply Z.leb_le in A, B. lia. Qed.

Lemma fmt_d_gchar iso n : Forall (gchar iso) (fmt_d n).
Proof.
  unfold fmt_d. destruct (Z.ltb_spec n 0) as [L|L].
  - constructor; [unfold gchar, MINUS; lia|]. destruct (fmt_u_ok (- n)) as [F _]; [lia|].
    eapply Forall_impl; [|exact F]. intros. apply digit_gchar; auto.
  - destruct (fmt_u_ok n) as [F _]; [lia|]. eapply Forall_impl; [|exact F]. intros. apply digit_gchar; auto.
Qed.

Lemma time_in c : existsb (Z.eqb c) time_specs = true <-> In c time_specs.
Proof.
  rewrite existsb_exists. split; [intros (x & I & E); apply Z.eqb_eq in E; congruence|].
  intros I. exists c. split; auto. apply Z.eqb_refl.
Qed.

Lemma spec_done iso obj pid tm size buf0 buf e c : obj_ok iso obj -> tm_ok tm -> holds size buf0 buf e ->
  exists t, text (option_map conv obj) pid tm c t
  /\ part_done size buf0 e t (spec_part iso obj pid tm buf (length e) (Z.of_nat size - Z.of_nat (length e)) c).
Proof.
  intros O T H. unfold spec_part.
  destruct (Z.eqb_spec c 78) as [->|N1].
  { destruct obj as [o|].
    - exists (clean (o_name o)). split; [apply T_name with (dev := snd (conv o)); reflexivity|]. apply copy_done; auto. apply O.
    - eexists. split; [apply T_none; auto|]. apply plain_done; auto. }
  destruct (Z.eqb_spec c 68) as [->|N2].
  { destruct obj as [o|].
    - destruct O as [O1 O2]. destruct (o_dev o) as [p|h q|] eqn:D.
      + exists (clean (base_name p p)). split.
        * apply T_path with (name := o_name o) (p := p); [unfold conv; cbn; rewrite D; reflexivity|apply base_name_last].
        * apply copy_done; auto. rewrite Forall_forall in *. intros x I. apply O2. eapply last_component_in; eauto. apply base_name_last.
      + exists (clean (h ++ COLON :: fmt_d q)). split.
        * apply T_host with (name := o_name o). unfold conv; cbn; rewrite D; reflexivity.
        * apply (print_done iso true); auto. intros _. apply Forall_app. split; auto. constructor; [unfold gchar, COLON; lia|apply fmt_d_gchar].
      + exists []. split; [apply T_other with (name := o_name o); unfold conv; cbn; rewrite D; reflexivity|].
        unfold part_done. rewrite app_nil_r. pose proof H as (_ & _ & _ & L & _). eexists _, _, _. split; [reflexivity|].
        destruct (Nat.ltb_spec (length e) size); [|lia]. auto.
    - eexists. split; [apply T_none; auto|]. apply plain_done; auto. }
  destruct (Z.eqb_spec c 80) as [->|N3].
  { exists (fmt_d pid). split; [apply T_pid|]. apply (print_done iso false); auto. discriminate. }
  destruct (existsb (Z.eqb c) time_specs) eqn:TM.
  { apply time_in in TM. exists (tm c). split; [apply T_time; exact TM|]. apply time_done; auto. apply T. exact TM. }
  destruct (Z.eqb_spec c PERCENT) as [->|N4].
  { exists [37%Z]. split; [apply T_percent|]. apply plain_done; auto. }
  exists [37%Z; c]. split; [|apply plain_done; auto].
  apply T_unknown. intros I.
  assert (In c time_specs -> False) as NT by (intros X; apply time_in in X; congruence).
  change (zs "NDPdgGHjmMsSuUVwWyY%") with (([78; 68; 80]%Z ++ time_specs) ++ [37%Z]) in I.
  apply in_app_or in I. destruct I as [I|I].
  - apply in_app_or in I. destruct I as [I|I]; [|auto]. destruct I as [I|[I|[I|[]]]]; congruence.
  - destruct I as [I|[]]. apply N4. symmetry. exact I.
Qed.

(** ** The loop *)
Lemma get_at (a r : list Z) c : get (a ++ c :: r) (length a) = Ok c.
Proof. apply (get_mid a []). Qed.

Definition loop_done (size : nat) (buf0 e t : list Z) (r : res (list Z * nat * Z)) : Prop :=
  exists buf' pdst n, r = Ok (buf', pdst, n)
  /\ (if length (e ++ t) <? size
      then holds size buf0 buf' (e ++ t) /\ pdst = length (e ++ t) /\ (0 < n)%Z
      else exists e', holds size buf0 buf' e' /\ pdst = length e' /\ (n <= 0)%Z).

Lemma loop_stop size buf0 buf e t iso obj pid tm mem k psrc n : holds size buf0 buf e -> (n <= 0)%Z -> psrc < length mem ->
  size <= length (e ++ t) -> loop_done size buf0 e t (format_loop (S k) iso obj pid tm mem psrc buf (length e) n).
Proof.
  intros H N G L. cbn [format_loop]. destruct (get_lt mem G) as (c & ->). cbn [bind].
  destruct (Z.leb_spec n 0); [|lia]. rewrite orb_true_r. exists buf, (length e), n. split; auto.
  destruct (Nat.ltb_spec (length (e ++ t)) size); [lia|]. exists e. auto.
Qed.

Lemma loop_ok iso obj pid tm size buf0 : obj_ok iso obj -> tm_ok tm -> forall m fmt pre post k buf e,
  length fmt <= m -> Forall (fun c => c <> 0%Z) fmt -> dangling fmt = false -> length fmt < k -> holds size buf0 buf e ->
  exists t, expands (option_map conv obj) pid tm fmt t /\
  loop_done size buf0 e t (format_loop k iso obj pid tm (pre ++ fmt ++ NUL :: post) (length pre) buf (length e)
                             (Z.of_nat size - Z.of_nat (length e))).
Proof.
  intros O T. induction m as [|m IH]; intros fmt pre post k buf e M NZ DG K H; (destruct k as [|k]; [lia|]).
  - destruct fmt; [|cbn in M; lia]. exists []. split; [constructor|]. cbn [format_loop app]. rewrite get_at. cbn [bind].
    rewrite Z.eqb_refl. cbn [orb]. pose proof H as (_ & _ & _ & L & _). unfold loop_done. rewrite app_nil_r.
    eexists _, _, _. split; [reflexivity|]. destruct (Nat.ltb_spec (length e) size); [|lia]. split; auto. split; auto. lia.
  - destruct fmt as [|c fmt].
    { exists []. split; [constructor|]. cbn [format_loop app]. rewrite get_at. cbn [bind].
      rewrite Z.eqb_refl. cbn [orb]. pose proof H as (_ & _ & _ & L & _). unfold loop_done. rewrite app_nil_r.
      eexists _, _, _. split; [reflexivity|]. destruct (Nat.ltb_spec (length e) size); [|lia]. split; auto. split; auto. lia. }
    pose proof H as (_ & _ & _ & L & _). cbn [length] in M, K. apply Forall_inv_tail in NZ as NZ2. apply Forall_inv in NZ.
    cbn [format_loop app]. rewrite get_at. cbn [bind].
    destruct (Z.eqb_spec c NUL) as [E|_]; [unfold NUL in E; lia|].
    destruct (Z.leb_spec (Z.of_nat size - Z.of_nat (length e)) 0); [lia|]. cbn [orb].
    assert (forall fmt2 pre2 t1 r k2, length fmt2 <= m -> Forall (fun c => c <> 0%Z) fmt2 -> dangling fmt2 = false -> length fmt2 < k2 ->
      part_done size buf0 e t1 r ->
      exists t2, expands (option_map conv obj) pid tm fmt2 t2 /\
       loop_done size buf0 e (t1 ++ t2) (do r <- r; let '(buf1, pdst1, n1) := r in
          format_loop k2 iso obj pid tm (pre2 ++ fmt2 ++ NUL :: post) (length pre2) buf1 pdst1 n1)) as GO.
    { intros fmt2 pre2 t1 r k2 M2 NZ' DG2 K2 (b' & p' & n' & -> & PD). cbn [bind].
      destruct (Nat.ltb_spec (length (e ++ t1)) size) as [LT|GE].
      - destruct PD as (H' & -> & ->). destruct (IH fmt2 pre2 post k2 b' (e ++ t1)) as (t2 & X & LD); auto.
        exists t2. split; auto. unfold loop_done in *. rewrite (app_assoc e t1 t2). exact LD.
      - destruct PD as (H' & -> & NL). destruct (IH fmt2 pre2 post k2 buf e) as (t2 & X & _); auto.
        exists t2. split; auto. destruct k2; [lia|]. apply loop_stop; auto; [rewrite !app_length; cbn; lia|].
        rewrite app_length in *. rewrite app_length. lia. }
    destruct (Z.eqb_spec c PERCENT) as [->|NP]; cbn [negb].
    + destruct fmt as [|d fmt]; [discriminate DG|]. cbn [dangling] in DG. change (PERCENT =? 37)%Z with true in DG. cbn iota in DG.
      apply Forall_inv_tail in NZ2 as NZ3. apply Forall_inv in NZ2.
      assert (pre ++ PERCENT :: (d :: fmt) ++ NUL :: post = (pre ++ [PERCENT]) ++ d :: fmt ++ NUL :: post) as SH1 by (rewrite <- app_assoc; reflexivity).
      cbn [app] in *. rewrite SH1. replace (S (length pre)) with (length (pre ++ [PERCENT])) by (rewrite app_length; cbn; lia).
      rewrite get_at. cbn [bind]. destruct (Z.eqb_spec d NUL) as [E|_]; [unfold NUL in E; lia|].
      destruct (spec_done iso obj pid tm size buf0 buf e d O T H) as (t1 & TX & PD). cbn [length] in M, K.
      destruct (GO fmt ((pre ++ [PERCENT]) ++ [d]) t1 _ k ltac:(lia) NZ3 DG ltac:(lia) PD) as (t2 & X & LD).
      exists (t1 ++ t2). split; [apply X_spec; auto|].
      assert ((pre ++ [PERCENT]) ++ d :: fmt ++ NUL :: post = ((pre ++ [PERCENT]) ++ [d]) ++ fmt ++ NUL :: post) as SH2 by (rewrite <- !app_assoc; reflexivity).
      rewrite SH2. replace (S (length (pre ++ [PERCENT]))) with (length ((pre ++ [PERCENT]) ++ [d])) by (rewrite !app_length; cbn; lia).
      exact LD.
    + assert (dangling fmt = false) as DG2.
      { cbn [dangling] in DG. destruct (Z.eqb_spec c 37); [unfold PERCENT in NP; congruence|auto]. }
      destruct (GO fmt (pre ++ [c]) [c] _ k ltac:(lia) NZ2 DG2 ltac:(lia) (plain_done size buf0 buf e [c] H)) as (t2 & X & LD).
      exists (c :: t2). split; [apply X_char; auto|].
      assert (pre ++ c :: fmt ++ NUL :: post = (pre ++ [c]) ++ fmt ++ NUL :: post) as SH by (rewrite <- app_assoc; reflexivity).
      rewrite SH. replace (S (length pre)) with (length (pre ++ [c])) by (rewrite app_length; cbn; lia). exact LD.
Qed.

(** The loop runs through a part of the format that fits. *)
Lemma loop_prefix iso obj pid tm size buf0 : obj_ok iso obj -> tm_ok tm -> forall m fmt pre post k buf e,
  length fmt <= m -> Forall (fun c => c <> 0%Z) fmt -> dangling fmt = false -> length fmt < k -> holds size buf0 buf e ->
  exists t, expands (option_map conv obj) pid tm fmt t /\
  (length (e ++ t) < size -> exists k' buf', k - length fmt <= k' /\ holds size buf0 buf' (e ++ t) /\
    format_loop k iso obj pid tm (pre ++ fmt ++ post) (length pre) buf (length e) (Z.of_nat size - Z.of_nat (length e))
    = format_loop k' iso obj pid tm (pre ++ fmt ++ post) (length (pre ++ fmt)) buf' (length (e ++ t))
        (Z.of_nat size - Z.of_nat (length (e ++ t)))).
Proof.
  intros O T. induction m as [|m IH]; intros fmt pre post k buf e M NZ DG K H.
  - destruct fmt; [|cbn in M; lia]. exists []. split; [constructor|]. intros _. exists k, buf. cbn [length app]. rewrite !app_nil_r. split; [lia|auto].
  - destruct fmt as [|c fmt].
    { exists []. split; [constructor|]. intros _. exists k, buf. cbn [length app]. rewrite !app_nil_r. split; [lia|auto]. }
    destruct k as [|k]; [cbn in K; lia|].
    pose proof H as (_ & _ & _ & L & _). cbn [length] in M, K. apply Forall_inv_tail in NZ as NZ2. apply Forall_inv in NZ.
    cbn [format_loop app]. rewrite get_at. cbn [bind].
    destruct (Z.eqb_spec c NUL) as [E|_]; [unfold NUL in E; lia|].
    destruct (Z.leb_spec (Z.of_nat size - Z.of_nat (length e)) 0); [lia|]. cbn [orb].
    assert (forall fmt2 pre2 t1 r, length fmt2 <= m -> Forall (fun c => c <> 0%Z) fmt2 -> dangling fmt2 = false -> length fmt2 < k ->
      part_done size buf0 e t1 r ->
      exists t2, expands (option_map conv obj) pid tm fmt2 t2 /\
       (length (e ++ t1 ++ t2) < size -> exists k' buf', k - length fmt2 <= k' /\ holds size buf0 buf' (e ++ t1 ++ t2) /\
        (do r <- r; let '(buf1, pdst1, n1) := r in
          format_loop k iso obj pid tm (pre2 ++ fmt2 ++ post) (length pre2) buf1 pdst1 n1)
        = format_loop k' iso obj pid tm (pre2 ++ fmt2 ++ post) (length (pre2 ++ fmt2)) buf' (length (e ++ t1 ++ t2))
          (Z.of_nat size - Z.of_nat (length (e ++ t1 ++ t2))))) as GO.
    { intros fmt2 pre2 t1 r M2 NZ' DG2 K2 (b' & p' & n' & -> & PD). cbn [bind].
      destruct (Nat.ltb_spec (length (e ++ t1)) size) as [LT|GE].
      - destruct PD as (H' & -> & ->). destruct (IH fmt2 pre2 post k b' (e ++ t1)) as (t2 & X & LD); auto.
        exists t2. split; auto. rewrite (app_assoc e t1 t2). exact LD.
      - destruct PD as (H' & -> & NL). destruct (IH fmt2 pre2 post k buf e) as (t2 & X & _); auto.
        exists t2. split; auto. intros Y. rewrite !app_length in Y. rewrite app_length in GE. lia. }
    destruct (Z.eqb_spec c PERCENT) as [->|NP]; cbn [negb].
    + destruct fmt as [|d fmt]; [discriminate DG|]. cbn [dangling] in DG. change (PERCENT =? 37)%Z with true in DG. cbn iota in DG.
      apply Forall_inv_tail in NZ2 as NZ3. apply Forall_inv in NZ2.
      assert (pre ++ PERCENT :: (d :: fmt) ++ post = (pre ++ [PERCENT]) ++ d :: fmt ++ post) as SH1 by (rewrite <- app_assoc; reflexivity).
      cbn [app] in *. rewrite SH1. replace (S (length pre)) with (length (pre ++ [PERCENT])) by (rewrite app_length; cbn; lia).
      rewrite get_at. cbn [bind]. destruct (Z.eqb_spec d NUL) as [E|_]; [unfold NUL in E; lia|].
      destruct (spec_done iso obj pid tm size buf0 buf e d O T H) as (t1 & TX & PD). cbn [length] in M, K.
      destruct (GO fmt ((pre ++ [PERCENT]) ++ [d]) t1 _ ltac:(lia) NZ3 DG ltac:(lia) PD) as (t2 & X & LD).
      exists (t1 ++ t2). split; [apply X_spec; auto|]. intros F. destruct (LD F) as (k' & b' & A & B & C). exists k', b'.
      split; [cbn [length]; lia|]. split; [exact B|].
      assert ((pre ++ [PERCENT]) ++ d :: fmt ++ post = ((pre ++ [PERCENT]) ++ [d]) ++ fmt ++ post) as SH2 by (rewrite <- !app_assoc; reflexivity).
      assert (pre ++ PERCENT :: d :: fmt = ((pre ++ [PERCENT]) ++ [d]) ++ fmt) as SH3 by (rewrite <- !app_assoc; reflexivity).
      rewrite SH2, SH3. replace (S (length (pre ++ [PERCENT]))) with (length ((pre ++ [PERCENT]) ++ [d])) by (rewrite !app_length; cbn; lia).
      exact C.
    + assert (dangling fmt = false) as DG2.
      { cbn [dangling] in DG. destruct (Z.eqb_spec c 37); [unfold PERCENT in NP; congruence|auto]. }
      destruct (GO fmt (pre ++ [c]) [c] _ ltac:(lia) NZ2 DG2 ltac:(lia) (plain_done size buf0 buf e [c] H)) as (t2 & X & LD).
      exists (c :: t2). split; [apply X_char; auto|]. intros F. destruct (LD F) as (k' & b' & A & B & C). exists k', b'.
      split; [cbn [length]; lia|]. split; [exact B|].
      assert (pre ++ c :: fmt ++ post = (pre ++ [c]) ++ fmt ++ post) as SH by (rewrite <- app_assoc; reflexivity).
      assert (pre ++ c :: fmt = (pre ++ [c]) ++ fmt) as SH3 by (rewrite <- app_assoc; reflexivity).
      rewrite SH, SH3. replace (S (length pre)) with (length (pre ++ [c])) by (rewrite app_length; cbn; lia). exact C.
Qed.

(** ** The whole function *)
Lemma put_end size buf0 buf e : holds size buf0 buf e ->
  exists buf', put buf (length e) NUL = Ok buf' /\ firstn (S (length e)) buf' = e ++ [NUL]
  /\ length buf' = length buf0 /\ forall k, size <= k -> skipn k buf' = skipn k buf0.
Proof.
  intros (A & B & C & D & E). destruct (blit_pre buf e [NUL] (length e)) as (b & E1 & E2 & E3 & E4); auto; [cbn; lia|].
  exists b. split; [exact E1|]. cbn [length] in *. rewrite Nat.add_1_r in E2. split; auto. split; [lia|].
  intros k K. rewrite E4 by lia. auto.
Qed.

Lemma holds_nil size buf : 0 < size <= length buf -> holds size buf buf [].
Proof. intros. unfold holds. cbn. repeat split; auto; lia. Qed.

Lemma format_ok iso obj pid tm buf size fmt post :
  obj_ok iso obj -> tm_ok tm -> 0 < size <= length buf -> Forall (fun c => c <> 0%Z) fmt -> dangling fmt = false ->
  exists t buf' r e, format_obj_string iso obj pid tm buf size (fmt ++ NUL :: post) = Ok (buf', r)
  /\ expands (option_map conv obj) pid tm fmt t
  /\ firstn (S (length e)) buf' = e ++ [NUL] /\ length e < size
  /\ length buf' = length buf /\ skipn size buf' = skipn size buf
  /\ (if length t <? size then r = Z.of_nat (length t) /\ e = t else r = (-1)%Z).
Proof.
  intros O T SZ NZ DG. unfold format_obj_string.
  destruct (loop_ok iso obj pid tm size buf O T (length fmt) fmt [] post (S (length (fmt ++ NUL :: post))) buf [])
    as (t & X & b & p & n & E & LD); auto using holds_nil.
  { rewrite app_length. lia. }
  cbn [app length] in E. rewrite Z.sub_0_r in E. rewrite E. cbn [bind]. cbn [app] in LD.
  destruct (Nat.ltb_spec (length t) size) as [LT|GE].
  - destruct LD as (H & -> & N). destruct (put_end size buf b t H) as (b2 & E1 & E2 & E3 & E4).
    destruct (Nat.ltb_spec (length t) size); [|lia]. cbn [assert_ bind]. rewrite E1. cbn [bind].
    exists t, b2. eexists. exists t. split; [reflexivity|]. repeat (match goal with |- _ /\ _ => split end); auto.
    destruct (Nat.ltb_spec (length t) size); [|lia]. destruct (Z.leb_spec n 0); [lia|]. auto.
  - destruct LD as (e' & H & -> & N). destruct (put_end size buf b e' H) as (b2 & E1 & E2 & E3 & E4).
    pose proof H as (_ & _ & _ & L & _).
    destruct (Nat.ltb_spec (length e') size); [|lia]. cbn [assert_ bind]. rewrite E1. cbn [bind].
    exists t, b2. eexists. exists e'. split; [reflexivity|]. repeat (match goal with |- _ /\ _ => split end); auto.
    destruct (Nat.ltb_spec (length t) size); [lia|]. destruct (Z.leb_spec n 0); [|lia]. reflexivity.
Qed.

(** ** The expansion is unique *)
Lemma last_component_det p c d : last_component p c -> last_component p d -> c = d.
Proof.
  assert (forall a b a' b' : list Z, a ++ 47%Z :: b = a' ++ 47%Z :: b' -> ~ In 47%Z b -> ~ In 47%Z b' -> b = b') as G.
  { induction a as [|x a IH]; intros b [|y a'] b' E N N'; cbn in E.
    - congruence.
    - injection E as E1 E2. exfalso. apply N. rewrite E2. apply in_or_app. right. left. auto.
    - injection E as E1 E2. exfalso. apply N'. rewrite <- E2. apply in_or_app. right. left. auto.
    - injection E as E1 E2. eapply IH; eauto. }
  intros [[-> N]|(x & E & N)] [[-> N']|(y & E' & N')]; subst; auto.
  - exfalso. apply N. apply in_or_app. right. left. auto.
  - exfalso. apply N'. apply in_or_app. right. left. auto.
  - eapply G; eauto.
Qed.

Lemma text_det con pid tm c s s' : text con pid tm c s -> text con pid tm c s' -> s = s'.
Proof.
  assert (forall x, In x (zs "dgGHjmMsSuUVwWyY") -> x <> 78%Z /\ x <> 68%Z /\ x <> 80%Z /\ x <> 37%Z /\ In x (zs "NDPdgGHjmMsSuUVwWyY%")) as TI.
  { intros x I. cbn in I. cbn. repeat (destruct I as [<-|I]; [repeat split; try discriminate; tauto|]). destruct I. }
  assert (forall x, x = 78%Z \/ x = 68%Z \/ x = 80%Z \/ x = 37%Z -> In x (zs "NDPdgGHjmMsSuUVwWyY%")) as TJ.
  { intros x I. cbn. intuition. }
  intros A B; inversion A; inversion B; subst; try congruence;
    try (match goal with H : In _ (zs "dgGHjmMsSuUVwWyY") |- _ => apply TI in H end; tauto || (intuition congruence));
    try (match goal with H : ~ In _ _ |- _ => exfalso; apply H; apply TJ; intuition end; fail);
    try (match goal with H : _ \/ _ |- _ => destruct H; discriminate end).
  - match goal with H : Some _ = Some _ |- _ => injection H as <- <- end. f_equal. eapply last_component_det; eauto.
Qed.

Lemma expands_det con pid tm fmt : forall t t', expands con pid tm fmt t -> expands con pid tm fmt t' -> t = t'.
Proof.
  intros t t' A. revert t'. induction A as [|c fmt t N A IH|c s fmt t TX A IH]; intros t' B; inversion B; subst; auto; try congruence.
  - f_equal. auto.
  - f_equal; eauto using text_det.
Qed.

(** a format that ends in a single '%': the loop goes on behind the terminator *)
Lemma format_dangling iso obj pid tm buf size fmt post :
  obj_ok iso obj -> tm_ok tm -> 0 < size <= length buf -> Forall (fun c => c <> 0%Z) fmt -> dangling fmt = false ->
  exists t, expands (option_map conv obj) pid tm fmt t /\
  (length t < size -> post = [] -> format_obj_string iso obj pid tm buf size (fmt ++ PERCENT :: NUL :: post) = UB OutOfBounds) /\
  (forall more rest, post = more ++ NUL :: rest -> Forall (fun c => c <> 0%Z) more -> dangling more = false ->
   exists t2, expands (option_map conv obj) pid tm more t2 /\
     (length (t ++ PERCENT :: t2) < size -> exists buf',
      format_obj_string iso obj pid tm buf size (fmt ++ PERCENT :: NUL :: post)
      = Ok (buf', Z.of_nat (length (t ++ PERCENT :: t2))) /\
      firstn (S (length (t ++ PERCENT :: t2))) buf' = (t ++ PERCENT :: t2) ++ [NUL])).
Proof.
  intros O T SZ NZ DG. unfold format_obj_string.
  set (mem := fmt ++ PERCENT :: NUL :: post).
  destruct (loop_prefix iso obj pid tm size buf O T (length fmt) fmt [] (PERCENT :: NUL :: post) (S (length mem)) buf [])
    as (t & X & LP); auto using holds_nil.
  { unfold mem. rewrite app_length. lia. }
  exists t. split; auto. cbn [app length] in LP. rewrite Z.sub_0_r in LP. fold mem in LP.
  assert (forall k' b, 0 < k' -> length t < size ->
     holds size buf b t ->
     exists r, part_done size buf t [PERCENT] r /\
     format_loop k' iso obj pid tm mem (length fmt) b (length t) (Z.of_nat size - Z.of_nat (length t))
     = do r <- r; let '(b1, p1, n1) := r in format_loop (pred k') iso obj pid tm mem (length fmt + 2) b1 p1 n1) as STEP.
  { intros k' b K L H. exists (plain_part b (length t) (Z.of_nat size - Z.of_nat (length t)) [PERCENT]). split; [apply plain_done; auto|].
    destruct k' as [|k']; [lia|]. cbn [format_loop pred]. unfold mem at 1. rewrite get_at. cbn [bind].
    change (PERCENT =? NUL)%Z with false. destruct (Z.leb_spec (Z.of_nat size - Z.of_nat (length t)) 0); [lia|]. cbn [orb].
    change (PERCENT =? PERCENT)%Z with true. cbn [negb]. unfold mem at 1.
    replace (fmt ++ PERCENT :: NUL :: post) with ((fmt ++ [PERCENT]) ++ NUL :: post) by (rewrite <- app_assoc; reflexivity).
    replace (S (length fmt)) with (length (fmt ++ [PERCENT])) by (rewrite app_length; cbn; lia).
    rewrite get_at. cbn [bind]. change (NUL =? NUL)%Z with true. cbn iota.
    replace (S (length (fmt ++ [PERCENT]))) with (length fmt + 2) by (rewrite app_length; cbn; lia). reflexivity. }
  assert (length mem = length fmt + 2 + length post) as LM by (unfold mem; rewrite app_length; cbn; lia).
  split.
  - intros L ->. destruct (LP L) as (k' & b & K & H & ->). destruct (STEP k' b ltac:(lia) L H) as (r & (b' & p' & n' & -> & _) & ->).
    cbn [bind]. assert (get mem (length fmt + 2) = UB OutOfBounds) as G.
    { unfold get. replace (nth_error mem (length fmt + 2)) with (@None Z); [reflexivity|]. symmetry. apply nth_error_None. cbn in LM. lia. }
    destruct k' as [|[|k']]; cbn [pred]; [lia|cbn in LM; lia|]. cbn [format_loop]. rewrite G. reflexivity.
  - intros more rest PE NZ2 DG2.
    assert (mem = (fmt ++ [PERCENT; NUL]) ++ more ++ NUL :: rest) as MM by (unfold mem; rewrite PE, <- app_assoc; reflexivity).
    destruct (loop_ok iso obj pid tm size buf O T (length more) more (fmt ++ [PERCENT; NUL]) rest (S (length more)) buf [])
      as (t2 & X2 & _); auto using holds_nil.
    exists t2. split; auto. intros L. rewrite app_length in L. cbn [length] in L.
    destruct (LP ltac:(lia)) as (k' & b & K & H & ->). destruct (STEP k' b ltac:(lia) ltac:(lia) H) as (r & (b' & p' & n' & -> & PD) & ->).
    cbn [bind]. destruct (Nat.ltb_spec (length (t ++ [PERCENT])) size) as [_|Y]; [|rewrite app_length in Y; cbn in Y; lia].
    destruct PD as (H' & -> & ->).
    rewrite PE in LM. rewrite app_length in LM. cbn [length] in LM.
    destruct (loop_prefix iso obj pid tm size buf O T (length more) more (fmt ++ [PERCENT; NUL]) (NUL :: rest) (pred k') b' (t ++ [PERCENT]))
      as (t3 & X3 & LP3); auto; [lia|].
    assert (t3 = t2) as -> by (eapply expands_det; eauto).
    rewrite <- !app_assoc in LP3. cbn [app] in LP3.
    destruct (LP3 ltac:(rewrite app_length; cbn [length]; lia)) as (k3 & b3 & K3 & H3 & E3).
    assert (fmt ++ PERCENT :: NUL :: more ++ NUL :: rest = mem) as ME by (rewrite MM, <- !app_assoc; reflexivity).
    rewrite ME in E3.
    replace (length (fmt ++ [PERCENT; NUL])) with (length fmt + 2) in E3 by (rewrite app_length; reflexivity).
    rewrite E3. destruct k3 as [|k3]; [lia|]. cbn [format_loop].
    assert (get mem (length (fmt ++ PERCENT :: NUL :: more)) = Ok NUL) as G.
    { assert (mem = (fmt ++ PERCENT :: NUL :: more) ++ NUL :: rest) as -> by (rewrite MM, <- !app_assoc; reflexivity). apply get_at. }
    rewrite G. cbn [bind]. change (NUL =? NUL)%Z with true. cbn [orb bind].
    destruct (put_end size buf b3 (t ++ PERCENT :: t2) H3) as (b4 & E4 & E5 & _).
    assert (length (t ++ PERCENT :: t2) < size) as L4 by (rewrite app_length; cbn [length]; lia).
    destruct (Nat.ltb_spec (length (t ++ PERCENT :: t2)) size); [|lia]. cbn [assert_ bind]. rewrite E4. cbn [bind].
    exists b4. split; [|exact E5]. do 2 f_equal.
    destruct (Z.leb_spec (Z.of_nat size - Z.of_nat (length (t ++ PERCENT :: t2))) 0); [lia|]. reflexivity.
Qed.

(** ** Slashes *)
Lemma count_app a b : count_slashes (a ++ b) = count_slashes a + count_slashes b.
Proof. induction a; cbn [count_slashes app]; lia. Qed.
Lemma count_none s : ~ In 47%Z s -> count_slashes s = 0.
Proof.
  induction s as [|c s IH]; cbn; auto. intros N. destruct (Z.eqb_spec c 47); [exfalso; auto|]. apply IH. auto.
Qed.
Lemma clean_none s : ~ In 47%Z (clean s).
Proof.
  unfold clean. intros I. apply in_map_iff in I. destruct I as (c & E & _). unfold clean_char in E.
  destruct (Z.eqb_spec c 47); [rewrite andb_false_r in E; discriminate|]. destruct ((33 <=? c)%Z && (c <=? 126)%Z); cbn in E; congruence.
Qed.
Lemma fmt_d_none n : ~ In 47%Z (fmt_d n).
Proof.
  unfold fmt_d. assert (forall m, (0 <= m)%Z -> ~ In 47%Z (fmt_u m)) as U.
  { intros m M I. destruct (fmt_u_ok m M) as [F _]. rewrite Forall_forall in F. specialize (F _ I). discriminate. }
  destruct (Z.ltb_spec n 0); [|apply U; lia]. intros [X|X]; [discriminate|]. eapply U; [|exact X]. lia.
Qed.

Lemma text_slashes con pid tm c s : text con pid tm c s ->
  (forall c, In c (zs "dgGHjmMsSuUVwWyY") -> ~ In 47%Z (tm c)) -> count_slashes s = if (c =? 47)%Z then 1 else 0.
Proof.
  intros A T. destruct A; try (rewrite count_none; [reflexivity|auto using clean_none, fmt_d_none]).
  - rewrite count_none by auto. destruct (Z.eqb_spec c 47) as [->|]; auto. exfalso. cbn in H. intuition discriminate.
  - cbn. discriminate || intuition.
  - destruct H0; subst; reflexivity.
  - cbn [count_slashes]. destruct (c =? 47)%Z; reflexivity.
Qed.

Lemma expands_slashes con pid tm fmt t : expands con pid tm fmt t ->
  (forall c, In c (zs "dgGHjmMsSuUVwWyY") -> ~ In 47%Z (tm c)) -> count_slashes t = slashes fmt.
Proof.
  intros A T. induction A as [|c fmt t N A IH|c s fmt t TX A IH]; cbn [slashes count_slashes]; auto.
  - destruct (Z.eqb_spec c 37); [congruence|]. rewrite IH. reflexivity.
  - change (37 =? 37)%Z with true. cbn iota. rewrite count_app, IH, (text_slashes _ _ _ _ _ TX T). reflexivity.
Qed.

(** ** Log files *)
Lemma strcmp_eq : forall a b, strcmp a b = 0%Z <-> a = b.
Proof.
  induction a as [|x a IH]; intros [|y b]; cbn [strcmp]; split; intros E; try discriminate; auto.
  - destruct (Z.eqb_spec x y) as [->|]; [|lia]. f_equal. apply IH. auto.
  - injection E as -> ->. rewrite Z.eqb_refl. apply IH. reflexivity.
Qed.

Lemma gchar_ok iso s : Forall (gchar iso) s -> chars_ok s.
Proof. apply Forall_impl. intros c [A _]. exact A. Qed.
Lemma clean_ok s : chars_ok (clean s).
Proof.
  apply Forall_forall. intros c I. apply in_map_iff in I. destruct I as (d & <- & _). unfold clean_char, char_ok.
  destruct (Z.leb_spec 33 d), (Z.leb_spec d 126), (Z.eqb_spec d 47); cbn; lia.
Qed.
Lemma text_chars con pid tm c s : text con pid tm c s -> char_ok c -> tm_ok tm -> chars_ok s.
Proof.
  intros A C T. destruct A; auto using clean_ok.
  - constructor.
  - eapply gchar_ok. apply (fmt_d_gchar false).
  - apply T. auto.
  - repeat constructor; discriminate || reflexivity.
  - repeat constructor; try (discriminate || reflexivity); apply C.
  - repeat constructor; try (discriminate || reflexivity); apply C.
Qed.
Lemma expands_chars con pid tm fmt t : expands con pid tm fmt t -> chars_ok fmt -> tm_ok tm -> chars_ok t.
Proof.
  intros A. induction A as [|c fmt t N A IH|c s fmt t TX A IH]; intros C T; auto.
  - inversion C; subst. constructor; auto. apply IH; auto.
  - inversion C as [|? ? C1 C2]; subst. inversion C2; subst. apply Forall_app. split; [eapply text_chars; eauto|]. apply IH; auto.
Qed.
Lemma expands_dangling con pid tm fmt t : expands con pid tm fmt t -> dangling fmt = false.
Proof.
  induction 1 as [|c fmt t N A IH|c s fmt t TX A IH]; cbn [dangling]; auto.
  destruct (Z.eqb_spec c 37); [congruence|auto].
Qed.
Lemma expands_plain con pid tm fmt : ~ In PERCENT fmt -> expands con pid tm fmt fmt.
Proof. induction fmt as [|c fmt IH]; intros N; constructor; [intros ->; apply N; left; reflexivity|]. apply IH. intros I. apply N. right. auto. Qed.

Lemma chars_nz s : chars_ok s -> Forall (fun c => c <> 0%Z) s.
Proof. apply Forall_impl. unfold char_ok. lia. Qed.

Lemma c_string_ok buf t : firstn (S (length t)) buf = t ++ [NUL] -> chars_ok t -> c_string buf = Ok t.
Proof.
  intros E C. unfold c_string.
  assert (StrSpec.holds buf t) as H.
  { split; auto. exists (skipn (S (length t)) buf). rewrite <- (firstn_skipn (S (length t)) buf) at 1. rewrite E, <- app_assoc. reflexivity. }
  rewrite (StrProof.strlen_ok _ _ H). cbn [bind]. f_equal.
  destruct H as (_ & j & ->). rewrite firstn_app, Nat.sub_diag, firstn_O, app_nil_r, firstn_all. reflexivity.
Qed.

Lemma has_percent name : existsb (Z.eqb PERCENT) name = true <-> In PERCENT name.
Proof.
  rewrite existsb_exists. split; [intros (x & I & E); apply Z.eqb_eq in E; congruence|].
  intros I. exists PERCENT. split; auto.
Qed.

Lemma create_eq iso pid tm buf name con logs t :
  obj_ok iso (Some con) -> tm_ok tm -> chars_ok name -> 0 < length buf ->
  expands (Some (conv con)) pid tm name t -> length t < length buf ->
  create_logfile iso pid tm buf name con logs =
  Ok (if existsb (fun l => (strcmp (l_name l) t =? 0)%Z) logs then None
      else Some (logs ++ [mkLog name (if existsb (Z.eqb PERCENT) name then Some name else None) con])).
Proof.
  intros O T C B X L. unfold create_logfile.
  destruct (existsb (Z.eqb PERCENT) name) eqn:HP.
  - destruct (format_ok iso (Some con) pid tm buf (length buf) name [] O T) as (t' & b' & r & e & E & X' & F & LE & LB & _ & R); auto using chars_nz.
    { eapply expands_dangling; eauto. }
    assert (t' = t) as -> by (eapply expands_det; eauto).
    destruct (Nat.ltb_spec (length t) (length buf)); [|lia]. destruct R as [-> ->].
    unfold cstr. rewrite E. cbn [bind]. destruct (Z.leb_spec 0 (Z.of_nat (length t))); [|lia].
    rewrite (c_string_ok b' t); auto; [|eapply expands_chars; eauto]. cbn [bind]. destruct (existsb _ logs); reflexivity.
  - assert (~ In PERCENT name) as NP by (rewrite <- has_percent; congruence).
    assert (t = name) as -> by (eapply expands_det; [exact X|apply expands_plain; auto]).
    cbn [bind]. destruct (existsb _ logs); reflexivity.
Qed.

Lemma clash_iff logs t : existsb (fun l => (strcmp (l_name l) t =? 0)%Z) logs = true <-> exists l, In l logs /\ l_name l = t.
Proof.
  rewrite existsb_exists. split; intros (l & I & E); exists l; split; auto.
  - apply Z.eqb_eq in E. apply strcmp_eq in E. auto.
  - apply Z.eqb_eq. apply strcmp_eq. auto.
Qed.

Lemma open_eq iso pid tm buf l f t :
  obj_ok iso (Some (l_con l)) -> tm_ok tm -> chars_ok f -> 0 < length buf -> l_fmt l = Some f ->
  expands (Some (conv (l_con l))) pid tm f t ->
  open_logfile iso pid tm buf l = Ok (if length t <? length buf then (mkLog t (Some f) (l_con l), Some t) else (l, None)).
Proof.
  intros O T C B LF X. unfold open_logfile. rewrite LF.
  destruct (format_ok iso (Some (l_con l)) pid tm buf (length buf) f [] O T) as (t' & b' & r & e & E & X' & F & LE & LB & _ & R); auto using chars_nz.
  { eapply expands_dangling; eauto. }
  assert (t' = t) as -> by (eapply expands_det; eauto).
  unfold cstr. rewrite E. cbn [bind]. destruct (Nat.ltb_spec (length t) (length buf)).
  - destruct R as [-> ->]. destruct (Z.ltb_spec (Z.of_nat (length t)) 0); [lia|].
    rewrite (c_string_ok b' t); auto. eapply expands_chars; eauto.
  - subst r. reflexivity.
Qed.
