(** Directives are read line by line. *)
From Coq Require Import String.
From Verif Require Import Base BaseProof Chars Fmt LexModel FnameModel OptModel LexSpec LexProof ConfModel ConfSpec ConfLex.
Local Open Scope Z_scope.
Local Open Scope list_scope.

(** ** Keywords *)
Lemma kw_neq E s k : In k [LEX_EOL; LEX_EOF; LEX_ERR; LEX_INT; LEX_STR; EQUALS] -> kw E s <> k.
Proof.
  unfold kw. assert (G : forall w l i, 259 <= i -> match position w i l with Some k => 259 <= k | None => True end).
  { intros w. induction l as [|t l IH]; intros i I; cbn [position]; [exact Logic.I|]. destruct (list_eqb w t); [exact I|apply IH; lia]. }
  specialize (G (zs s) (server_conf_strs (e_ipmi E)) LEX_TOK_OFFSET ltac:(vm_compute; discriminate)).
  intros I. destruct (position _ _ _).
  - vm_compute in I. lia.
  - vm_compute in I. lia.
Qed.
Lemma kw_eol E s : kw E s =? LEX_EOL = false.
Proof. apply Z.eqb_neq. apply kw_neq. cbn. auto. Qed.
Lemma eol_kw E s : LEX_EOL =? kw E s = false.
Proof. rewrite Z.eqb_sym. apply kw_eol. Qed.

(** ** Two streams on the same line, followed by different texts *)
Section TwoStreams.
Variable E : env.
Variables vs1 vs2 : list (Z * list Z).

Definition clean (us : list (Z * list Z)) : Prop := Forall (fun p => at_end (fst p) = false) us.
Definition nobare (us : list (Z * list Z)) : Prop :=
  forall before x1 x2 n, us <> before ++ [(kw E "TIMESTAMP", x1); (EQUALS, x2); (LEX_INT, n)].
Definition in_line (m : nat) (s1 s2 : strm) : Prop :=
  prev s1 = prev s2 /\ text s1 = text s2 /\ at_end (prev s1) = false /\
  exists us x, clean us /\ nobare ((prev s1, text s1) :: us) /\ (length us <= m)%nat /\
    rest s1 = us ++ (LEX_EOL, x) :: vs1 /\ rest s2 = us ++ (LEX_EOL, x) :: vs2.
Definition at_eol (s1 s2 : strm) : Prop :=
  exists x, s1 = mkStrm LEX_EOL x vs1 /\ s2 = mkStrm LEX_EOL x vs2.

Lemma nobare_tail a us : nobare (a :: us) -> nobare us.
Proof. intros N b x1 x2 n ->. apply (N (a :: b) x1 x2 n). reflexivity. Qed.

Lemma next_sim m s1 s2 : in_line m s1 s2 ->
  at_eol (next s1) (next s2) \/ (exists m', m = S m' /\ in_line m' (next s1) (next s2)).
Proof.
  intros (P & T & A & us & x & C & N & L & R1 & R2). unfold next. rewrite R1, R2. destruct us as [|[k y] us]; cbn [app].
  - left. exists x. auto.
  - right. destruct m; [cbn in L; lia|]. exists m. split; [reflexivity|]. inversion C; subst. cbn [fst] in *.
    split; [reflexivity|]. split; [reflexivity|]. cbn [prev text rest]. split; [auto|]. exists us, x.
    split; [auto|]. split; [eapply nobare_tail; eauto|]. split; [cbn in L; lia|auto].
Qed.

Lemma skip_toks_clean us : clean us -> forall k y x vs, at_end k = false ->
  skip_toks k y (us ++ (LEX_EOL, x) :: vs) = mkStrm LEX_EOL x vs.
Proof.
  intros C. induction us as [|[k' y'] us IH]; intros k y x vs A; cbn [app skip_toks]; rewrite A.
  - destruct vs; reflexivity.
  - inversion C; subst. apply IH; auto.
Qed.
Lemma skip_sim m s1 s2 : at_eol s1 s2 \/ in_line m s1 s2 -> at_eol (skip_line s1) (skip_line s2).
Proof.
  intros [(x & -> & ->)|(P & T & A & us & x & C & N & L & R1 & R2)].
  - exists x. unfold skip_line. cbn [prev text rest]. split; destruct vs1, vs2; reflexivity.
  - exists x. unfold skip_line. rewrite R1, R2, <- P, <- T. split; apply skip_toks_clean; auto.
Qed.

(** Outcomes that agree *)
Definition agree {A} (m : nat) (r1 r2 : res (A * option cerr * strm)) : Prop :=
  match r1, r2 with
  | Ok (a1, e1, t1), Ok (a2, e2, t2) =>
      a1 = a2 /\ e1 = e2 /\ match e1 with
                            | None => in_line m t1 t2
                            | Some _ => at_eol t1 t2 \/ in_line m t1 t2
                            end
  | UB k1, UB k2 => k1 = k2
  | _, _ => False
  end.
Definition done_agree {A} (r1 r2 : res (A * option cerr * strm)) : Prop :=
  match r1, r2 with
  | Ok (a1, e1, t1), Ok (a2, e2, t2) =>
      a1 = a2 /\ e1 = e2 /\ match e1 with
                            | None => at_eol t1 t2
                            | Some _ => at_eol t1 t2 \/ exists m, in_line m t1 t2
                            end
  | UB k1, UB k2 => k1 = k2
  | _, _ => False
  end.
Definition kwd_ok {A} (kwd : A -> strm -> res (A * option cerr * strm)) : Prop :=
  forall a m s1 s2, in_line m s1 s2 -> agree m (kwd a s1) (kwd a s2).

Lemma in_line_le m m' s1 s2 : in_line m s1 s2 -> (m <= m')%nat -> in_line m' s1 s2.
Proof.
  intros (P & T & A & us & x & C & N & L & R) H. split; [auto|]. split; [auto|]. split; [auto|]. exists us, x.
  split; [auto|]. split; [auto|]. split; [lia|auto].
Qed.

Lemma loop_sim {A} (kwd : A -> strm -> res (A * option cerr * strm)) : kwd_ok kwd ->
  forall m n1 n2 a s1 s2, in_line m s1 s2 -> (m < n1)%nat -> (m < n2)%nat ->
  done_agree (dir_loop kwd n1 a s1) (dir_loop kwd n2 a s2).
Proof.
  intros K. induction m as [m IH] using lt_wf_ind. intros [|n1] [|n2] a s1 s2 I H1 H2; try lia.
  cbn [dir_loop]. destruct (next_sim _ _ _ I) as [(x & -> & ->)|(m' & -> & I')].
  - cbn [prev]. change (at_end LEX_EOL) with true. cbn [done_agree]. split; [auto|]. split; [auto|]. exists x. auto.
  - destruct I' as (P & T & A0 & R). rewrite <- P, A0.
    assert (I2 : in_line m' (next s1) (next s2)) by (split; [auto|]; split; [auto|]; split; [auto|exact R]).
    destruct (prev (next s1) =? LEX_ERR).
    + cbn [done_agree]. split; [auto|]. split; [auto|]. right. exists m'. auto.
    + pose proof (K a m' _ _ I2) as G. unfold agree in G.
      destruct (kwd a (next s1)) as [[[a1 e1] t1]|], (kwd a (next s2)) as [[[a2 e2] t2]|]; try tauto; cbn [bind].
      destruct G as (<- & <- & G). destruct e1; cbn [done_agree].
      { split; [auto|]. split; [auto|]. destruct G; [auto|]. right. exists m'. auto. }
      apply (IH m'); auto; lia.
Qed.

(** A keyword with '=' and a value *)
Lemma valued_sim {A} (f : A -> Z -> list Z -> res (A * option cerr)) a m s1 s2 :
  (forall a x, exists e, f a LEX_EOL x = Ok (a, Some e)) ->
  in_line m s1 s2 -> agree m (valued f a s1) (valued f a s2).
Proof.
  intros F I. assert (PV : prev s1 = prev s2) by apply I. unfold valued, eq_val. rewrite <- PV.
  destruct (next_sim _ _ _ I) as [(x & -> & ->)|(m' & -> & I')].
  - cbn [prev]. change (LEX_EOL =? EQUALS) with false. cbn [negb agree]. split; [auto|]. split; [auto|]. left. exists x. auto.
  - assert (P : prev (next s1) = prev (next s2)) by apply I'. rewrite <- P. destruct (prev (next s1) =? EQUALS).
    + cbn [negb]. destruct (next_sim _ _ _ I') as [(x & -> & ->)|(m & -> & I2)].
      * cbn [prev text]. destruct (F a x) as [e EF]. rewrite EF. cbn [bind fst snd agree].
        split; [auto|]. split; [auto|]. left. exists x. auto.
      * assert (P2 : prev (next (next s1)) = prev (next (next s2))) by apply I2.
        assert (T2 : text (next (next s1)) = text (next (next s2))) by apply I2. rewrite <- P2, <- T2.
        destruct (f a _ _) as [[a' e]|]; cbn [bind fst snd agree]; [|auto]. split; [auto|]. split; [auto|].
        destruct e; [right|]; eapply in_line_le; eauto.
    + cbn [negb agree]. split; [auto|]. split; [auto|]. right. eapply in_line_le; eauto.
Qed.

Lemma full_str_eol x : full_str E LEX_EOL x = Ok false.
Proof. reflexivity. Qed.

Lemma console_val_eol c tok a x : exists e, console_val E c tok a LEX_EOL x = Ok (a, Some e).
Proof.
  unfold console_val. rewrite full_str_eol. change (LEX_EOL =? LEX_STR) with false. cbn [negb bind].
  repeat match goal with |- context [if ?b then _ else _] => destruct b end; eauto.
Qed.
Lemma global_val_eol tok a x : exists e, global_val E tok a LEX_EOL x = Ok (a, Some e).
Proof.
  unfold global_val. rewrite full_str_eol. change (LEX_EOL =? LEX_STR) with false. cbn [negb bind].
  destruct (tok =? _); eauto.
Qed.
Lemma server_val_eol ps ts tok a x : exists e, server_val E ps ts tok a LEX_EOL x = Ok (a, Some e).
Proof.
  unfold server_val, on_off. rewrite full_str_eol, !eol_kw. change (LEX_EOL =? LEX_STR) with false. change (LEX_EOL =? LEX_INT) with false.
  cbn [negb bind]. repeat match goal with |- context [if ?b then _ else _] => destruct b end; eauto.
Qed.

Lemma stop_sim {A} (a : A) e m s1 s2 : in_line m s1 s2 -> agree m (Ok (a, Some e, s1)) (Ok (a, Some e, s2)).
Proof. intros I. cbn [agree]. auto. Qed.

Lemma console_kwd_sim c : kwd_ok (console_kwd E c).
Proof.
  intros a m s1 s2 I. unfold console_kwd. assert (P : prev s1 = prev s2) by apply I. assert (T : text s1 = text s2) by apply I.
  rewrite <- P, <- T. destruct (among _ _ _); [|apply stop_sim; auto]. apply valued_sim; auto. apply console_val_eol.
Qed.
Lemma global_kwd_sim : kwd_ok (global_kwd E).
Proof.
  intros a m s1 s2 I. unfold global_kwd. assert (P : prev s1 = prev s2) by apply I. assert (T : text s1 = text s2) by apply I.
  rewrite <- P, <- T. destruct (among _ _ _); [|apply stop_sim; auto]. apply valued_sim; auto. apply global_val_eol.
Qed.
Lemma timestamp_sim a m s1 s2 : prev s1 = kw E "TIMESTAMP" -> in_line m s1 s2 -> agree m (timestamp_kwd a s1) (timestamp_kwd a s2).
Proof.
  intros TS I. assert (PV : prev s1 = prev s2) by apply I. unfold timestamp_kwd, eq_val. rewrite <- PV.
  destruct I as (_ & TX & A0 & us & x & C & N & L & R1 & R2). unfold next. rewrite R1, R2.
  destruct us as [|[k1 y1] us]; cbn [app prev text rest].
  { change (LEX_EOL =? EQUALS) with false. cbn [negb agree]. split; [auto|]. split; [auto|]. left. exists x. auto. }
  inversion C as [|? ? C1 C2]; subst. cbn [fst] in C1.
  assert (I1 : in_line m (mkStrm k1 y1 (us ++ (LEX_EOL, x) :: vs1)) (mkStrm k1 y1 (us ++ (LEX_EOL, x) :: vs2))).
  { split; [auto|]. split; [auto|]. split; [auto|]. exists us, x. cbn [prev text rest].
    split; [auto|]. split; [eapply nobare_tail; eauto|]. split; [cbn in L; lia|auto]. }
  destruct (Z.eqb_spec k1 EQUALS) as [->|N1]; cbn [negb]; [|apply stop_sim; auto].
  destruct us as [|[k2 y2] us]; cbn [app prev text rest].
  { change (LEX_EOL =? LEX_INT) with false. cbn [negb agree]. split; [auto|]. split; [auto|]. left. exists x. auto. }
  inversion C2 as [|? ? C3 C4]; subst. cbn [fst] in C3.
  assert (I2 : in_line m (mkStrm k2 y2 (us ++ (LEX_EOL, x) :: vs1)) (mkStrm k2 y2 (us ++ (LEX_EOL, x) :: vs2))).
  { split; [auto|]. split; [auto|]. split; [auto|]. exists us, x. cbn [prev text rest].
    split; [auto|]. split; [do 2 eapply nobare_tail; eauto|]. split; [cbn in L; lia|auto]. }
  destruct (Z.eqb_spec k2 LEX_INT) as [->|N2]; cbn [negb]; [|apply stop_sim; auto].
  destruct (atoi y2) as [v|]; cbn [bind]; [|reflexivity]. destruct (v <? 0); [apply stop_sim; auto|].
  destruct us as [|[k3 y3] us]; cbn [app prev text rest].
  { exfalso. apply (N [] (text s1) y1 y2). rewrite TS. reflexivity. }
  inversion C4 as [|? ? C5 C6]; subst. cbn [fst] in C5.
  assert (I3 : in_line m (mkStrm k3 y3 (us ++ (LEX_EOL, x) :: vs1)) (mkStrm k3 y3 (us ++ (LEX_EOL, x) :: vs2))).
  { split; [auto|]. split; [auto|]. split; [auto|]. exists us, x. cbn [prev text rest].
    split; [auto|]. split; [do 3 eapply nobare_tail; eauto|]. split; [cbn in L; lia|auto]. }
  rewrite C5. match goal with |- agree _ (do m <- ?r; _) _ => destruct r as [w|] end; cbn [bind]; [|reflexivity].
  destruct (w <? 0); [apply stop_sim; auto|]. cbn [agree]. auto.
Qed.
Lemma server_kwd_sim ps ts : kwd_ok (server_kwd E ps ts).
Proof.
  intros a m s1 s2 I. unfold server_kwd. assert (P : prev s1 = prev s2) by apply I. assert (T : text s1 = text s2) by apply I.
  rewrite <- P, <- T. destruct (Z.eqb_spec (prev s1) (kw E "TIMESTAMP")) as [TS|_]; [apply timestamp_sim; auto|].
  assert (V : agree m (valued (server_val E ps ts (prev s1)) a s1) (valued (server_val E ps ts (prev s1)) a s2)).
  { apply valued_sim; auto. apply server_val_eol. }
  destruct (prev s1 =? kw E "TCPWRAPPERS").
  { destruct (e_tcpw E); [exact V|apply stop_sim; auto]. }
  destruct (among _ _ _); [exact V|apply stop_sim; auto].
Qed.

(** A directive *)
Definition line_agree (r1 r2 : res (conf * strm)) : Prop :=
  match r1, r2 with
  | Ok (c1, t1), Ok (c2, t2) => c1 = c2 /\ at_eol t1 t2
  | UB k1, UB k2 => k1 = k2
  | _, _ => False
  end.
Lemma finish_sim c e s1 s2 : match e with None => at_eol s1 s2 | Some _ => at_eol s1 s2 \/ exists m, in_line m s1 s2 end ->
  line_agree (Ok (finish c e s1)) (Ok (finish c e s2)).
Proof.
  destruct e; cbn [finish line_agree]; intros H; split; auto. destruct H as [H|(m & H)].
  - apply (skip_sim O). auto.
  - apply (skip_sim m). auto.
Qed.
Lemma fuel_in_line m s1 s2 : in_line m s1 s2 -> exists m', in_line m' s1 s2 /\ (m' < fuel_of s1)%nat /\ (m' < fuel_of s2)%nat.
Proof.
  intros (P & T & A & us & x & C & N & L & R1 & R2). exists (length us). unfold fuel_of. split.
  - split; [auto|]. split; [auto|]. split; [auto|]. exists us, x. auto.
  - rewrite R1, R2, !app_length. cbn [length]. lia.
Qed.
Lemma console_sim c m s1 s2 : in_line m s1 s2 ->
  line_agree (parse_console_directive E c s1) (parse_console_directive E c s2).
Proof.
  intros I. destruct (fuel_in_line _ _ _ I) as (m' & I' & F1 & F2). unfold parse_console_directive.
  pose proof (loop_sim _ (console_kwd_sim c) m' _ _ (mkStrs None None None None None None None) _ _ I' F1 F2) as G.
  destruct (dir_loop _ (fuel_of s1) _ s1) as [[[n1 e1] t1]|], (dir_loop _ (fuel_of s2) _ s2) as [[[n2 e2] t2]|]; cbn [bind done_agree] in *; try tauto.
  destruct G as (<- & <- & G). destruct e1; [apply finish_sim; exact G|].
  destruct (n_name n1); [|apply finish_sim; auto]. destruct (n_dev n1); [|apply finish_sim; auto].
  destruct (process_console _ _ _ _ _) as [[c' bad]|]; cbn [bind]; [|reflexivity]. apply finish_sim. destruct bad; auto.
Qed.
Lemma global_sim c m s1 s2 : in_line m s1 s2 ->
  line_agree (parse_global_directive E c s1) (parse_global_directive E c s2).
Proof.
  intros I. destruct (fuel_in_line _ _ _ I) as (m' & I' & F1 & F2). unfold parse_global_directive.
  pose proof (loop_sim _ global_kwd_sim m' _ _ c _ _ I' F1 F2) as G.
  destruct (dir_loop _ (fuel_of s1) _ s1) as [[[n1 e1] t1]|], (dir_loop _ (fuel_of s2) _ s2) as [[[n2 e2] t2]|]; cbn [bind done_agree] in *; try tauto.
  destruct G as (<- & <- & G). apply finish_sim. exact G.
Qed.
Lemma server_sim c m s1 s2 : in_line m s1 s2 ->
  line_agree (parse_server_directive E c s1) (parse_server_directive E c s2).
Proof.
  intros I. destruct (fuel_in_line _ _ _ I) as (m' & I' & F1 & F2). unfold parse_server_directive.
  pose proof (loop_sim _ (server_kwd_sim (match c_pidfile c with Some _ => true | None => false end) (0 <=? c_port c)) m' _ _ c _ _ I' F1 F2) as G.
  destruct (dir_loop _ (fuel_of s1) _ s1) as [[[n1 e1] t1]|], (dir_loop _ (fuel_of s2) _ s2) as [[[n2 e2] t2]|]; cbn [bind done_agree] in *; try tauto.
  destruct G as (<- & <- & G). apply finish_sim. exact G.
Qed.
End TwoStreams.

(** ** The rounds suffice *)
Lemma next_len s : (length (rest (next s)) <= length (rest s))%nat.
Proof. unfold next. destruct (rest s) as [|[k x] r]; cbn; lia. Qed.
Lemma next_len' s : rest s <> [] -> (S (length (rest (next s))) = length (rest s))%nat.
Proof. unfold next. destruct (rest s) as [|[k x] r]; cbn; [congruence|auto]. Qed.
Lemma skip_toks_len r : forall k x, (length (rest (skip_toks k x r)) <= length r)%nat.
Proof.
  induction r as [|[k' x'] r IH]; intros k x; cbn [skip_toks]; destruct (at_end k); cbn [rest length]; try lia.
  specialize (IH k' x'). lia.
Qed.
Lemma skip_len' s : (length (rest (skip_line s)) <= length (rest s))%nat.
Proof. apply skip_toks_len. Qed.

Definition shrinks {A} (s : strm) (r : res (A * option cerr * strm)) : Prop :=
  match r with Ok (_, _, t) => (length (rest t) <= length (rest s))%nat | UB _ => True end.
Lemma valued_len {A} (f : A -> Z -> list Z -> res (A * option cerr)) a s : shrinks s (valued f a s).
Proof.
  unfold valued, eq_val. pose proof (next_len s). pose proof (next_len (next s)).
  destruct (_ =? EQUALS); cbn [negb shrinks]; [|lia]. destruct (f _ _ _); cbn [bind shrinks]; [lia|exact I].
Qed.
Lemma loop_len {A} (kwd : A -> strm -> res (A * option cerr * strm)) : (forall a s, shrinks s (kwd a s)) ->
  forall n a s, shrinks s (dir_loop kwd n a s).
Proof.
  intros K. induction n as [|n IH]; intros a s; cbn [dir_loop]; [exact I|].
  pose proof (next_len s) as N. destruct (at_end _); [exact N|]. destruct (_ =? LEX_ERR); [exact N|].
  pose proof (K a (next s)) as KS. destruct (kwd a (next s)) as [[[a' e] t]|]; cbn [bind shrinks] in *; [|exact I].
  destruct e; cbn [shrinks]; [lia|]. specialize (IH a' t). unfold shrinks in *. destruct (dir_loop kwd n a' t) as [[[? ?] ?]|]; [lia|exact I].
Qed.
Lemma console_kwd_len E c a s : shrinks s (console_kwd E c a s).
Proof. unfold console_kwd. destruct (among _ _ _); [apply valued_len|cbn; lia]. Qed.
Lemma global_kwd_len E a s : shrinks s (global_kwd E a s).
Proof. unfold global_kwd. destruct (among _ _ _); [apply valued_len|cbn; lia]. Qed.
Lemma timestamp_len a s : shrinks s (timestamp_kwd a s).
Proof.
  unfold timestamp_kwd, eq_val. pose proof (next_len s). pose proof (next_len (next s)). pose proof (next_len (next (next s))).
  destruct (_ =? EQUALS); cbn [negb shrinks]; [|lia]. destruct (_ =? LEX_INT); cbn [negb shrinks]; [|lia].
  destruct (atoi _) as [v|]; cbn [bind shrinks]; [|exact I]. destruct (v <? 0); cbn [shrinks]; [lia|].
  match goal with |- shrinks _ (do m <- ?r; _) => destruct r as [w|] end; cbn [bind shrinks]; [|exact I].
  destruct (w <? 0); cbn [shrinks]; lia.
Qed.
Lemma server_kwd_len E p t a s : shrinks s (server_kwd E p t a s).
Proof.
  unfold server_kwd. destruct (_ =? _); [apply timestamp_len|]. destruct (_ =? _).
  { destruct (e_tcpw E); [apply valued_len|cbn; lia]. }
  destruct (among _ _ _); [apply valued_len|cbn; lia].
Qed.
Definition shrinks2 (s : strm) (r : res (conf * strm)) : Prop :=
  match r with Ok (_, t) => (length (rest t) <= length (rest s))%nat | UB _ => True end.
Lemma finish_len c e t s : (length (rest t) <= length (rest s))%nat -> shrinks2 s (Ok (finish c e t)).
Proof. intros H. destruct e; cbn [finish shrinks2]; [|lia]. pose proof (skip_len' t). lia. Qed.
Lemma console_len E c s : shrinks2 s (parse_console_directive E c s).
Proof.
  unfold parse_console_directive.
  pose proof (loop_len _ (console_kwd_len E c) (fuel_of s) (mkStrs None None None None None None None) s) as H.
  destruct (dir_loop _ _ _ _) as [[[n e] t]|]; cbn [bind shrinks] in *; [|exact I].
  destruct e; [apply finish_len; lia|]. destruct (n_name n); [|apply finish_len; lia]. destruct (n_dev n); [|apply finish_len; lia].
  destruct (process_console _ _ _ _ _) as [[c' bad]|]; cbn [bind]; [apply finish_len; lia|exact I].
Qed.
Lemma global_len E c s : shrinks2 s (parse_global_directive E c s).
Proof.
  unfold parse_global_directive. pose proof (loop_len _ (global_kwd_len E) (fuel_of s) c s) as H.
  destruct (dir_loop _ _ _ _) as [[[n e] t]|]; cbn [bind shrinks] in *; [apply finish_len; lia|exact I].
Qed.
Lemma server_len E c s : shrinks2 s (parse_server_directive E c s).
Proof.
  unfold parse_server_directive.
  pose proof (loop_len _ (server_kwd_len E (match c_pidfile c with Some _ => true | None => false end) (0 <=? c_port c)) (fuel_of s) c s) as H.
  destruct (dir_loop _ _ _ _) as [[[n e] t]|]; cbn [bind shrinks] in *; [apply finish_len; lia|exact I].
Qed.

Lemma config_fuel E : forall n m c s, (length (rest s) < n)%nat -> (length (rest s) < m)%nat ->
  config_loop n E c s = config_loop m E c s.
Proof.
  induction n as [|n IH]; intros [|m] c s N M; try lia. cbn [config_loop].
  destruct (rest s) as [|[k x] r] eqn:R.
  { unfold next. rewrite R. cbn [prev]. change (LEX_EOF =? LEX_EOF) with true. reflexivity. }
  assert (L : (S (length (rest (next s))) = length (rest s))%nat) by (apply next_len'; congruence).
  rewrite R in L. cbn [length] in *. set (t := next s) in *. clearbody t.
  destruct (prev t =? LEX_EOF); [reflexivity|].
  assert (G : forall r, shrinks2 t r -> (do x <- r; config_loop n E (fst x) (snd x)) = (do x <- r; config_loop m E (fst x) (snd x))).
  { intros [[c' t']|]; cbn [shrinks2 bind fst snd]; [|reflexivity]. intros H. apply IH; lia. }
  destruct (prev t =? kw E "CONSOLE"); [apply G, console_len|].
  destruct (prev t =? kw E "GLOBAL"); [apply G, global_len|].
  destruct (prev t =? kw E "SERVER"); [apply G, server_len|].
  destruct (prev t =? LEX_EOL); [apply IH; lia|]. destruct (prev t =? LEX_ERR); [apply IH; lia|].
  pose proof (skip_len' t). apply IH; lia.
Qed.

(** ** Lines *)
Definition good (E : env) (ts : list (Z * list Z)) : Prop :=
  Forall (fun p => fst p <> LEX_EOF) ts /\ (ts = [] \/ exists us x, ts = us ++ [(LEX_EOL, x)]) /\
  forall before after x1 x2 n x4,
    ts <> before ++ [(kw E "TIMESTAMP", x1); (EQUALS, x2); (LEX_INT, n); (LEX_EOL, x4)] ++ after.
Lemma good_suffix E u ts : good E (u ++ ts) -> good E ts.
Proof.
  intros (F & L & B). apply Forall_app in F. split; [apply F|]. split.
  - destruct ts as [|p ts]; [auto|]. right. destruct L as [L|(us & x & L)]; [destruct u; discriminate|].
    destruct (exists_last (l := p :: ts) ltac:(discriminate)) as (us' & y & EL). rewrite EL in *. rewrite app_assoc in L.
    apply app_inj_tail in L. destruct L as [_ ->]. eauto.
  - intros b a x1 x2 n x4 ->. apply (B (u ++ b) a x1 x2 n x4). rewrite <- app_assoc. reflexivity.
Qed.
Lemma good_line E k x ts : good E ((k, x) :: ts) -> k <> LEX_EOL ->
  exists us y ts', ts = us ++ (LEX_EOL, y) :: ts' /\ clean us /\ nobare E ((k, x) :: us) /\ at_end k = false /\ good E ts'.
Proof.
  intros G NK. assert (NE : at_end k = false).
  { unfold at_end. destruct G as (F & _). inversion F; subst. cbn [fst] in *.
    destruct (Z.eqb_spec k LEX_EOL); [congruence|]. destruct (Z.eqb_spec k LEX_EOF); [congruence|]. reflexivity. }
  assert (S : exists us y ts', ts = us ++ (LEX_EOL, y) :: ts' /\ clean us).
  { pose proof (good_suffix E [(k, x)] ts G) as (F & L & _).
    assert (IN : exists y, In (LEX_EOL, y) ts).
    { destruct G as (_ & L2 & _). destruct L2 as [L2|(us & y & L2)]; [discriminate|]. exists y. destruct ts as [|p ts].
      - destruct us as [|? [|? ?]]; cbn in L2; try discriminate. injection L2. intros. congruence.
      - destruct L as [L|(us2 & y2 & L)]; [discriminate|]. rewrite L in *.
        change ((k, x) :: us2 ++ [(LEX_EOL, y2)]) with (((k, x) :: us2) ++ [(LEX_EOL, y2)]) in L2. apply app_inj_tail in L2.
        destruct L2 as [_ L2]. rewrite L2. apply in_or_app. right. left. reflexivity. }
    clear - IN F. induction ts as [|[k' y'] ts IH]; [destruct IN as (y & [])|]. inversion F; subst. cbn [fst] in *.
    destruct (Z.eq_dec k' LEX_EOL) as [->|N].
    - exists [], y', ts. split; [reflexivity|constructor].
    - destruct IH as (us & y & ts' & -> & C); auto.
      { destruct IN as (y & [IN|IN]); [congruence|eauto]. }
      exists ((k', y') :: us), y, ts'. split; [reflexivity|]. constructor; auto. cbn [fst]. unfold at_end.
      destruct (Z.eqb_spec k' LEX_EOL); [congruence|]. destruct (Z.eqb_spec k' LEX_EOF); [congruence|]. reflexivity. }
  destruct S as (us & y & ts' & -> & C). exists us, y, ts'. split; [reflexivity|]. split; [auto|]. split.
  - intros b x1 x2 n EB. destruct G as (_ & _ & B). apply (B b ts' x1 x2 n y).
    change ((k, x) :: us ++ (LEX_EOL, y) :: ts') with (((k, x) :: us) ++ (LEX_EOL, y) :: ts'). rewrite EB. rewrite <- app_assoc. reflexivity.
  - split; [auto|]. change ((k, x) :: us ++ (LEX_EOL, y) :: ts') with ([(k, x)] ++ us ++ (LEX_EOL, y) :: ts') in G.
    apply good_suffix in G. apply good_suffix in G. apply (good_suffix E [(LEX_EOL, y)]) in G. exact G.
Qed.

Lemma config_next n E c s s' : rest s = rest s' -> config_loop n E c s = config_loop n E c s'.
Proof. intros H. destruct n; [reflexivity|]. cbn [config_loop]. unfold next. rewrite H. reflexivity. Qed.

Lemma lines_loop E vs p0 x0 : forall m ts c n1 n2 n3 p1 x1 p2 x2, (length ts <= m)%nat -> good E ts ->
  (length (ts ++ vs) < n1)%nat -> (S (length ts) < n2)%nat -> (length vs < n3)%nat ->
  config_loop n1 E c (mkStrm p1 x1 (ts ++ vs)) =
  do c1 <- config_loop n2 E c (mkStrm p2 x2 (ts ++ [(LEX_EOF, [])])); config_loop n3 E c1 (mkStrm p0 x0 vs).
Proof.
  induction m as [m IH] using lt_wf_ind. intros ts c n1 n2 n3 p1 x1 p2 x2 LM G N1 N2 N3.
  destruct ts as [|[k x] ts].
  { destruct n2 as [|n2]; [cbn in N2; lia|].
    assert (config_loop (S n2) E c (mkStrm p2 x2 ([] ++ [(LEX_EOF, [])])) = Ok c) as -> by reflexivity. cbn [bind app] in *.
    rewrite (config_next _ _ _ _ (mkStrm p0 x0 vs)) by reflexivity. apply config_fuel; cbn [rest]; lia. }
  destruct n1 as [|n1]; [lia|]. destruct n2 as [|n2]; [cbn in N2; lia|]. cbn [config_loop].
  unfold next. cbn [app rest prev text]. cbn [length app] in *. rewrite app_length in N1.
  assert (NEOF : (k =? LEX_EOF) = false).
  { destruct G as (F & _). inversion F; subst. apply Z.eqb_neq. auto. }
  rewrite NEOF.
  destruct (Z.eq_dec k LEX_EOL) as [->|NEOL].
  { rewrite !eol_kw. change (LEX_EOL =? LEX_EOL) with true. cbv iota.
    apply (IH (length ts)); try lia; rewrite ?app_length; try lia. eapply (good_suffix E [(LEX_EOL, x)]). exact G. }
  destruct (good_line E k x ts G NEOL) as (us & y & ts' & ETS & C & NB & AE & G').
  assert (LT : (length ts = length us + S (length ts'))%nat) by (rewrite ETS, app_length; reflexivity).
  assert (IL : in_line E (ts' ++ vs) (ts' ++ [(LEX_EOF, [])]) (length us)
                 (mkStrm k x (ts ++ vs)) (mkStrm k x (ts ++ [(LEX_EOF, [])]))).
  { split; [reflexivity|]. split; [reflexivity|]. split; [exact AE|]. exists us, y. cbn [prev text rest].
    split; [auto|]. split; [auto|]. split; [lia|]. rewrite ETS, <- !app_assoc. auto. }
  assert (D : forall r1 r2, line_agree (ts' ++ vs) (ts' ++ [(LEX_EOF, [])]) r1 r2 ->
     (do r <- r1; config_loop n1 E (fst r) (snd r)) =
     (do c1 <- (do r <- r2; config_loop n2 E (fst r) (snd r)); config_loop n3 E c1 (mkStrm p0 x0 vs))).
  { intros [[c1 t1]|k1] [[c2 t2]|k2]; cbn [line_agree bind fst snd]; try tauto; [|congruence].
    intros (<- & z & -> & ->). apply (IH (length ts')); try lia; auto. rewrite app_length. lia. }
  destruct (k =? kw E "CONSOLE"); [apply D; eapply console_sim; eauto|].
  destruct (k =? kw E "GLOBAL"); [apply D; eapply global_sim; eauto|].
  destruct (k =? kw E "SERVER"); [apply D; eapply server_sim; eauto|].
  destruct (Z.eqb_spec k LEX_EOL) as [X|_]; [congruence|].
  destruct (k =? LEX_ERR).
  { apply (IH (length ts)); try lia; rewrite ?app_length; try lia. eapply (good_suffix E [(k, x)]). exact G. }
  destruct (skip_sim E _ _ _ _ _ (or_intror IL)) as (z & E1 & E2). rewrite E1, E2.
  apply (IH (length ts')); try lia; auto. rewrite app_length. lia.
Qed.

Lemma conf_table E : sorted_table (server_conf_strs (e_ipmi E)).
Proof. destruct (e_ipmi E); apply sorted_b_ok; vm_compute; reflexivity. Qed.

Lemma read_config_tokens E c f : plain_text E f -> read_config E c f = parse_toks E c (tokens_of E f).
Proof.
  intros (C & I). unfold read_config, tokens_of.
  destruct (lex_all_ok (e_iso E) _ (conf_table E) (S (length f)) (lex_create (f ++ [NUL]) (server_conf_strs (e_ipmi E))) f
    (at_create _ _ _ C) I eq_refl) as (l & r & EL & _). rewrite EL. reflexivity.
Qed.

Lemma read_lines E c a b : plain_text E a -> plain_text E b -> ends_line a -> ~ bare_timestamp E a ->
  read_config E c (a ++ b) = do c1 <- read_config E c a; read_config E c1 b.
Proof.
  intros A B L T. assert (AB : plain_text E (a ++ b)).
  { destruct A as (A1 & A2), B as (B1 & B2). split; [apply Forall_app; auto|]. intros I. apply Forall_app. auto. }
  rewrite (read_config_tokens E c (a ++ b)), (read_config_tokens E c a) by auto.
  destruct (tokens_lines (server_conf_strs (e_ipmi E)) b (proj1 B) (S (length a)) a ltac:(lia) (proj1 A) (or_intror L)) as (ts & E1 & F & E2 & LE).
  unfold parse_toks, tokens_of, fuel_of. rewrite E1, E2. cbn [rest].
  rewrite (lines_loop E (tokens (S (length b)) (server_conf_strs (e_ipmi E)) b) 0 [] (length ts) ts c _ (S (length (ts ++ [(LEX_EOF, [])])))
             (S (length (tokens (S (length b)) (server_conf_strs (e_ipmi E)) b))) 0 [] 0 []); rewrite ?app_length; cbn [length]; try lia.
  - destruct (config_loop _ E c _) as [c1|]; [|reflexivity]. cbn [bind]. rewrite read_config_tokens by auto. reflexivity.
  - split; [auto|]. split.
    + right. destruct LE as [->|LE]; [apply ends_line_nonempty in L; congruence|exact LE].
    + intros bf af x1 x2 n x4 ->. apply T. exists bf, (af ++ [(LEX_EOF, [])]), x1, x2, n, x4. unfold tokens_of. rewrite E1.
      rewrite <- !app_assoc. reflexivity.
Qed.
