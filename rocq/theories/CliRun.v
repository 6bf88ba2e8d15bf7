From Coq Require Import String.
From Verif Require Import Base BaseProof Mem Chars Fmt LexModel LexProof StrModel EnvModel CliModel CliSpec CliProof.
From Coq Require Import ZifyNat.
Local Open Scope Z_scope.
Local Open Scope list_scope.

(** ** Any file *)
Lemma strip_exists s : exists body, stripped s body.
Proof.
  assert (LD : forall s, exists a r, s = a ++ r /\ blanks a /\ (forall c t, r = c :: t -> isspace c = false)).
  { clear. induction s as [|c s (a & r & E & B & F)]; [exists [], []; split; [reflexivity|]; split; [constructor|discriminate]|].
    destruct (isspace c) eqn:I; [exists (c :: a), r; split; [subst; reflexivity|]; split; [constructor; assumption|exact F]|].
    exists [], (c :: s). split; [reflexivity|]. split; [constructor|]. intros ? ? E2. congruence. }
  assert (TR : forall s, exists r b, s = r ++ b /\ blanks b /\ (forall c t, r = t ++ [c] -> isspace c = false)).
  { clear. induction s as [|c s (r & b & E & B & F)] using rev_ind; [exists [], []; split; [reflexivity|]; split; [constructor|intros ? t E; destruct t; discriminate E]|].
    destruct (isspace c) eqn:I; [exists r, (b ++ [c]); split; [subst; rewrite app_assoc; reflexivity|]; split; [apply Forall_app; split; [assumption|constructor; [assumption|constructor]]|exact F]|].
    exists (s ++ [c]), []. split; [rewrite app_nil_r; reflexivity|]. split; [constructor|]. intros d t E2. apply app_inj_tail in E2. destruct E2 as [_ <-]. exact I. }
  destruct (LD s) as (a & r & E & BA & FA). destruct (TR r) as (body & b & E2 & BB & FB). exists body, a, b. subst r. split; [exact E|]. split; [exact BA|]. split; [exact BB|]. split; [|exact FB].
  intros c t ->. apply (FA c (t ++ b)). reflexivity.
Qed.
Definition byte7 (iso : bool) (c : Z) : Prop := 0 <= c < (if iso then 128 else 256).
Lemma to_nul (iso : bool) l post : Forall (byte7 iso) l -> exists t p2, l ++ 0 :: post = t ++ 0 :: p2 /\ text_ok iso t /\ (length t <= length l)%nat.
Proof.
  induction l as [|c l IH]; intros F; [exists [], post; split; [reflexivity|]; split; [constructor|lia]|]. inversion F as [|? ? F1 F2]; subst. unfold byte7 in F1. destruct (Z.eq_dec c 0) as [->|NE].
  - exists [], (l ++ 0 :: post). split; [reflexivity|]. split; [constructor|cbn [length]; lia].
  - destruct (IH F2) as (t & p2 & E & T & L). exists (c :: t), p2. cbn [app]. rewrite E. split; [reflexivity|]. split; [constructor; [lia|exact T]|cbn [length]; lia].
Qed.
Lemma line_of_app n file : forall l rest, line_of n file = (l, rest) -> file = l ++ rest /\ (length l <= n)%nat /\ ((0 < n)%nat -> file <> [] -> l <> []).
Proof.
  revert file. induction n as [|n IH]; intros file l rest E; [cbn [line_of] in E; injection E as <- <-; split; [reflexivity|]; split; [cbn [length]; lia|lia]|].
  destruct file as [|c t]; cbn [line_of] in E; [injection E as <- <-; split; [reflexivity|]; split; [cbn [length]; lia|congruence]|].
  destruct (c =? LF); [injection E as <- <-; split; [reflexivity|]; split; [cbn [length]; lia|discriminate]|].
  destruct (line_of n t) as [a b] eqn:L. injection E as <- <-. destruct (IH t a b L) as (-> & LE & _). split; [reflexivity|]. split; [cbn [length]; lia|discriminate].
Qed.
Lemma read_safe iso : forall k buf file cs, (2 <= length buf)%nat -> Forall (byte7 iso) file -> (length file < k)%nat ->
  exists ns, read_loop iso k buf file cs = Ok (cs ++ ns) /\ Forall (fun n => n <> [] /\ (length n < length buf)%nat /\ text_ok iso n /\ stripped n n /\ (forall t, n <> HASH :: t)) ns.
Proof.
  induction k as [|k IH]; intros buf file cs LB F K; [lia|]. rewrite read_loop_pick. destruct file as [|x y] eqn:EF.
  { cbn [fgets bind]. exists []. rewrite app_nil_r. split; [reflexivity|constructor]. }
  rewrite <- EF in *. destruct (line_of (length buf - 1) file) as [l rest] eqn:LO. destruct (line_of_app _ _ _ _ LO) as (E & LL & NE). 
  assert (NL : l <> []) by (apply NE; [lia|rewrite EF; discriminate]).
  destruct (fgets_line buf l rest (l, rest)) as (post & FG & LP).
  - rewrite <- E. exact LO.
  - rewrite <- E, EF. discriminate.
  - reflexivity.
  - lia.
  - rewrite <- E in FG. rewrite FG. cbn [bind snd]. rewrite E in F. apply Forall_app in F. destruct F as [F1 F2]. destruct (to_nul iso l post F1) as (t & p2 & ET & TT & LT). rewrite ET.
    destruct (strip_exists t) as (body & ST). destruct (pick_ok iso t body p2 ST TT) as (b2 & P & L2). rewrite P. cbn [bind fst snd]. rewrite <- ET, LP in L2.
    assert (LR : (length rest < k)%nat) by (rewrite E, app_length in K; destruct l; [congruence|cbn [length] in K; lia]).
    destruct (IH b2 rest (match (match body with [] => None | c :: _ => if c =? HASH then None else Some body end) with Some s => cs ++ [s] | None => cs end)) as (ns & E2 & G); [lia|exact F2|exact LR|]. rewrite L2 in G.
    destruct body as [|c u]; [exists ns; auto|]. destruct (Z.eqb_spec c HASH) as [_|NH]; [exists ns; auto|]. exists ((c :: u) :: ns). rewrite E2. rewrite <- app_assoc. split; [reflexivity|]. constructor; [|exact G].
    split; [discriminate|]. destruct ST as (a & b & EE & BA & BB & FA & FB). subst t. rewrite !app_length in LT. split; [lia|]. apply Forall_app in TT. destruct TT as [_ TT]. apply Forall_app in TT. destruct TT as [TT _]. split; [exact TT|].
    split; [|intros v X; congruence]. exists [], []. rewrite app_nil_r. split; [reflexivity|]. split; [constructor|]. split; [constructor|]. split; assumption.
Qed.

(** ** Precedence *)
Lemma app_inv_len {A} (a a' b b' : list A) : length a = length a' -> a ++ b = a' ++ b' -> a = a' /\ b = b'.
Proof.
  revert a'. induction a as [|x a IH]; intros [|y a'] L E; try discriminate L; [split; [reflexivity|exact E]|]. cbn [app] in E. injection E as -> E. destruct (IH a' ltac:(cbn [length] in L; lia) E) as [-> ->]. split; reflexivity.
Qed.
Section Chosen.
Context {S A : Type} (says : S -> A -> Prop) (d : A).
Lemma chosen_nil : chosen says d [] d.
Proof. right. split; [reflexivity|]. intros ? ? []. Qed.
Lemma chosen_hit l s x : says s x -> chosen says d (l ++ [s]) x.
Proof. intros H. left. exists l, s, []. split; [reflexivity|]. split; [exact H|intros ? ? []]. Qed.
Lemma chosen_skip l s x : (forall y, ~ says s y) -> chosen says d l x -> chosen says d (l ++ [s]) x.
Proof.
  intros N [(a & s0 & b & -> & H & F)|(-> & F)].
  - left. exists a, s0, (b ++ [s]). split; [rewrite <- app_assoc; reflexivity|]. split; [exact H|]. intros s' y I. apply in_app_or in I. destruct I as [I|[<-|[]]]; [apply F; exact I|apply N].
  - right. split; [reflexivity|]. intros s' y I. apply in_app_or in I. destruct I as [I|[<-|[]]]; [apply F; exact I|apply N].
Qed.
(** nothing but the sources decides *)
Lemma chosen_unique l x y : (forall s a b, says s a -> says s b -> a = b) -> chosen says d l x -> chosen says d l y -> x = y.
Proof.
  intros FN [(a & s & b & E & H & F)|(-> & F)] [(a' & s' & b' & E' & H' & F')|(-> & F')].
  - assert (LL : length b = length b').
    { destruct (Nat.lt_trichotomy (length b) (length b')) as [L|[L|L]]; [|exact L|].
      - exfalso. apply (F' s x); [|exact H]. rewrite E in E'. clear - E' L. revert a E'. induction a' as [|z a' IH]; intros [|w a] E'; cbn [app] in E'.
        + injection E' as _ ->. lia.
        + injection E' as _ E'. rewrite <- E'. apply in_or_app. right. left. reflexivity.
        + injection E' as _ E'. apply f_equal with (f := @length S) in E'. rewrite app_length in E'. cbn [length] in E'. lia.
        + injection E' as _ E'. eapply IH; eauto.
      - exfalso. apply (F s' y); [|exact H']. rewrite E' in E. clear - E L. revert a' E. induction a as [|z a IH]; intros [|w a'] E; cbn [app] in E.
        + injection E as _ ->. lia.
        + injection E as _ E. rewrite <- E. apply in_or_app. right. left. reflexivity.
        + injection E as _ E. apply f_equal with (f := @length S) in E. rewrite app_length in E. cbn [length] in E. lia.
        + injection E as _ E. eapply IH; eauto. }
    rewrite E in E'. assert (X : a = a' /\ s :: b = s' :: b'). { apply app_inv_len; [|exact E']. apply f_equal with (f := @length S) in E'. rewrite !app_length in E'. cbn [length] in E'. lia. }
    destruct X as [_ X]. injection X as -> _. eapply FN; eauto.
  - exfalso. apply (F' s x); [rewrite E; apply in_or_app; right; left; reflexivity|exact H].
  - exfalso. apply (F s' y); [rewrite E'; apply in_or_app; right; left; reflexivity|exact H'].
  - reflexivity.
Qed.
End Chosen.

(** ** Options *)
Record deciding (S : list source) (c : conf) : Prop := {
  g_port : chosen says_port 7890 S (c_port c);
  g_host : chosen says_host (zs "127.0.0.1") S (c_host c);
  g_esc : chosen says_esc 38 S (c_esc c);
  g_cmd : chosen says_cmd Connect S (c_cmd c);
  g_log : chosen says_log None S (c_log c);
  g_share : chosen says_share (false, false) S (c_force c, c_join c);
  g_bcast : c_bcast c = true <-> In (Option_ OBcast) S;
  g_quiet : c_quiet c = true <-> In (Option_ OQuiet) S;
  g_regex : c_regex c = true <-> In (Option_ ORegex) S;
  g_verbose : c_verbose c = true <-> In (Option_ OVerbose) S }.

Lemma in_skip {A} (x s : A) l (P : Prop) : x <> s -> (P <-> In x l) -> (P <-> In x (l ++ [s])).
Proof. intros N H. rewrite H. split; intros I; [apply in_or_app; left; exact I|]. apply in_app_or in I. destruct I as [I|[I|[]]]; [exact I|congruence]. Qed.
Lemma in_hit {A} (x : A) l : true = true <-> In x (l ++ [x]).
Proof. split; [intros _; apply in_or_app; right; left; reflexivity|reflexivity]. Qed.

Lemma cut_ok c s : match cut c s with (h, q) => ~ In c h /\ s = match q with Some q => h ++ c :: q | None => h end end.
Proof.
  induction s as [|x t IH]; cbn [cut]; [split; [intros []|reflexivity]|]. destruct (Z.eqb_spec x c) as [->|NE]; [split; [intros []|reflexivity]|].
  destruct (cut c t) as [h q]. destruct IH as [N E]. split; [intros [I|I]; [congruence|auto]|]. destruct q; rewrite E; reflexivity.
Qed.
Lemma dest_unique v h q h2 q2 : dest v h q -> dest v h2 q2 -> h = h2 /\ q = q2.
Proof.
  intros [N E] [N2 E2]. revert h2 v N2 E E2. induction h as [|x h IH]; intros [|y h2] v N2 E E2.
  - split; [reflexivity|]. destruct q, q2; subst; cbn [app] in E2; congruence.
  - exfalso. destruct q, q2; subst; cbn [app] in E2; try discriminate E2; injection E2 as E2 _; apply N2; left; congruence.
  - exfalso. destruct q, q2; subst; cbn [app] in E2; try discriminate E2; injection E2 as E2 _; apply N; left; congruence.
  - destruct v as [|z v]; [destruct q; discriminate E|]. assert (X : z = x /\ v = match q with Some q0 => h ++ COLON :: q0 | None => h end) by (destruct q; injection E; auto).
    assert (Y : z = y /\ v = match q2 with Some q0 => h2 ++ COLON :: q0 | None => h2 end) by (destruct q2; injection E2; auto).
    destruct X as [-> X], Y as [-> Y]. destruct (IH (fun I => N (or_intror I)) h2 v (fun I => N2 (or_intror I)) X Y) as [-> ->]. split; reflexivity.
Qed.
(** a place that names a server *)
Definition names_server (s : source) (v : list Z) : Prop := s = EnvHost v \/ s = Option_ (ODest v).
Lemma take_host_ok S c s v : names_server s v -> dest_ok v -> deciding S c -> exists c', take_host c v = Ok c' /\ deciding (S ++ [s]) c' /\ c_consoles c' = c_consoles c /\ c_user c' = c_user c /\ c_tty c' = c_tty c.
Proof.
  intros NS OK G. unfold take_host. pose proof (cut_ok COLON v) as CO. destruct (cut COLON v) as [h q].
  assert (D : dest v h q) by exact CO. clear CO.
  assert (SP : forall p, says_port s p <-> 0 < p /\ exists q', q = Some q' /\ atoi q' = Ok p).
  { intros p. destruct NS as [-> | ->]; cbn [says_port]; (split; intros [P X]; (split; [exact P|])); try (destruct X as (h' & q' & D' & A); destruct (dest_unique _ _ _ _ _ D D') as [_ E]; exists q'; split; [exact E|exact A]); destruct X as (q' & -> & A); exists h, q'; split; assumption. }
  assert (SH : forall h', says_host s h' <-> h' <> [] /\ h' = h).
  { intros h'. destruct NS as [-> | ->]; cbn [says_host]; (split; intros [P X]; (split; [exact P|])); try (destruct X as (q' & D'); destruct (dest_unique _ _ _ _ _ D D') as [E _]; congruence); subst h'; exists q; exact D. }
  assert (C1 : exists c1, (match q with None => Ok c | Some q0 => do i <- atoi q0; Ok (if 0 <? i then set_port c i else c) end) = Ok c1 /\
     chosen says_port 7890 (S ++ [s]) (c_port c1) /\ c1 = set_port c (c_port c1)).
  { destruct q as [q|].
    - destruct (OK h q D) as (n & A). rewrite A. cbn [bind]. destruct (Z.ltb_spec 0 n) as [P|P].
      + eexists. split; [reflexivity|]. split; [|reflexivity]. apply chosen_hit. cbn [set_port c_port]. apply SP. split; [exact P|]. exists q. auto.
      + exists c. split; [reflexivity|]. split; [|destruct c; reflexivity]. apply chosen_skip; [|apply G]. intros y Y. apply SP in Y. destruct Y as (Y & q' & E & A'). injection E as <-. rewrite A in A'. injection A' as ->. lia.
    - exists c. split; [reflexivity|]. split; [|destruct c; reflexivity]. apply chosen_skip; [|apply G]. intros y Y. apply SP in Y. destruct Y as (Y & q' & E & A'). discriminate E. }
  destruct C1 as (c1 & -> & PO & EC). cbn [bind].
  assert (NE : forall o, (forall x, o <> ODest x) -> Option_ o <> s) by (intros o N; destruct NS as [-> | ->]; [discriminate|intros E; injection E as E; exact (N _ E)]).
  assert (SK : forall T (says : source -> T -> Prop) d x, (forall y, ~ says s y) -> chosen says d S x -> chosen says d (S ++ [s]) x) by (intros; apply chosen_skip; assumption).
  assert (HH : exists c2, (match h with [] => c1 | _ :: _ => set_host c1 h end) = c2 /\ chosen says_host (zs "127.0.0.1") (S ++ [s]) (c_host c2) /\ c2 = set_host c1 (c_host c2)).
  { destruct h as [|x h].
    - exists c1. split; [reflexivity|]. split; [|destruct c1; reflexivity]. rewrite EC. cbn [set_port c_host]. apply chosen_skip; [|apply G]. intros y Y. apply SH in Y. destruct Y as [Y Y2]. congruence.
    - eexists. split; [reflexivity|]. split; [|reflexivity]. apply chosen_hit. cbn [set_host c_host]. apply SH. split; [discriminate|reflexivity]. }
  destruct HH as (c2 & -> & HO & EH). exists c2. split; [reflexivity|].
  assert (F : c2 = set_host (set_port c (c_port c1)) (c_host c2)) by (rewrite <- EC; exact EH).
  destruct G. split.
  { constructor; try exact HO; rewrite F; cbn [set_host set_port c_port c_esc c_cmd c_log c_force c_join c_bcast c_quiet c_regex c_verbose]; try exact PO;
      try (apply chosen_skip; [|assumption]; destruct NS as [-> | ->]; intros y Y; exact Y); (apply in_skip; [|assumption]; apply NE; discriminate). }
  rewrite F. cbn [set_host set_port c_consoles c_user c_tty]. auto.
Qed.

Lemma options_ok iso buf : forall l S c h ns, Forall (opt_ok iso (length buf)) l -> opts_give iso (length buf) l ns -> deciding S c ->
  exists c', options iso buf c h l = Ok (Go c', h || existsb (fun o => match o with OHelp => true | _ => false end) l) /\
  deciding (S ++ map Option_ l) c' /\ c_consoles c' = c_consoles c ++ ns /\ c_user c' = c_user c /\ c_tty c' = c_tty c.
Proof.
  induction l as [|o l IH]; intros S c h ns F OG G.
  { inversion OG; subst. cbn [options map existsb]. rewrite app_nil_r, orb_false_r, app_nil_r. exists c. auto. }
  inversion F as [|? ? F1 F2]; subst.
  assert (SA : S ++ map Option_ (o :: l) = (S ++ [Option_ o]) ++ map Option_ l) by (rewrite <- app_assoc; reflexivity). rewrite SA. clear SA.
  assert (OTH : (forall f, o <> OFile f) -> opts_give iso (length buf) l ns) by (intros N; inversion OG; subst; [exfalso; eapply N; reflexivity|assumption]).
  assert (STEP : forall c1, deciding (S ++ [Option_ o]) c1 -> c_consoles c1 = c_consoles c -> c_user c1 = c_user c -> c_tty c1 = c_tty c -> opts_give iso (length buf) l ns -> forall h',
     exists c', options iso buf c1 h' l = Ok (Go c', h' || existsb (fun o => match o with OHelp => true | _ => false end) l) /\
       deciding ((S ++ [Option_ o]) ++ map Option_ l) c' /\ c_consoles c' = c_consoles c ++ ns /\ c_user c' = c_user c /\ c_tty c' = c_tty c).
  { intros c1 D1 E1 E2 E3 O1 h'. destruct (IH _ c1 h' ns F2 O1 D1) as (c' & E & D & EE1 & EE2 & EE3). exists c'. rewrite <- E1, <- E2, <- E3. auto. }
  destruct o; cbn [opt_ok] in F1; try contradiction; cbn [options existsb orb];
    try (match goal with |- context [options iso buf ?c1 _ l] => apply (STEP c1); try reflexivity; [|apply OTH; discriminate] end;
         destruct G; constructor; cbn [set_modes set_cmd set_quiet set_regex set_verbose set_log c_port c_host c_esc c_cmd c_log c_force c_join c_bcast c_quiet c_regex c_verbose];
         first [ apply chosen_skip; [intros y Y; cbn [says_port] in Y; first [exact Y|destruct Y as [_ Y]; exact Y]|assumption]
               | apply chosen_hit; reflexivity
               | apply in_skip; [discriminate|assumption]
               | apply in_hit ]).
  - (* ODest *) destruct (take_host_ok S c (Option_ (ODest a)) a (or_intror eq_refl) F1 G) as (c1 & E & D & E1 & E2 & E3). rewrite E. cbn [bind]. apply STEP; auto. apply OTH. discriminate.
  - (* OEsc *) assert (GE : exists e, get (cstr a) 0 = Ok e /\ exists t, a ++ [NUL] = e :: t). { unfold cstr. destruct a as [|x a]; eexists; (split; [reflexivity|eexists; reflexivity]). }
    destruct GE as (e & -> & SE). cbn [bind]. apply (STEP (set_esc c e)); try reflexivity; [|apply OTH; discriminate].
    destruct G; constructor; cbn [set_esc c_port c_host c_esc c_cmd c_log c_force c_join c_bcast c_quiet c_regex c_verbose];
         first [ apply chosen_skip; [intros y Y; cbn [says_port] in Y; first [exact Y|destruct Y as [_ Y]; exact Y]|assumption]
               | apply chosen_hit; exact SE
               | apply in_skip; [discriminate|assumption] ].
  - (* OFile *) inversion OG as [|f0 ? ns0 ms H2 H3|? ? ? N3]; subst; [|exfalso; eapply N3; reflexivity]. rewrite (file_ok iso buf f0 ns0 (c_consoles c) H2). cbn [bind].
    destruct (IH (S ++ [Option_ (OFile (Some f0))]) (set_consoles c (c_consoles c ++ ns0)) h ms F2 H3) as (c' & E & D & E1 & E2 & E3).
    { destruct G; constructor; cbn [set_consoles c_port c_host c_esc c_cmd c_log c_force c_join c_bcast c_quiet c_regex c_verbose];
         first [ apply chosen_skip; [intros y Y; cbn [says_port] in Y; first [exact Y|destruct Y as [_ Y]; exact Y]|assumption]
               | apply in_skip; [discriminate|assumption] ]. }
    exists c'. split; [exact E|]. split; [exact D|]. rewrite E1, E2, E3. cbn [set_consoles c_consoles c_user c_tty]. rewrite <- app_assoc. auto.
  - (* OHelp *) destruct (STEP c) with (h' := true) as (c' & E & R); try reflexivity.
    + destruct G; constructor; first [ apply chosen_skip; [intros y Y; cbn [says_port] in Y; first [exact Y|destruct Y as [_ Y]; exact Y]|assumption] | apply in_skip; [discriminate|assumption] ].
    + apply OTH. discriminate.
    + exists c'. split; [|exact R]. rewrite E. rewrite orb_true_r. reflexivity.
Qed.

(** the environment *)
Lemma env_step env c : env_ok env -> deciding [] c ->
  exists c', process_env env c = Ok c' /\ deciding (sources env []) c' /\ c_consoles c' = c_consoles c /\ c_user c' = c_user c /\ c_tty c' = c_tty c.
Proof.
  intros [OH OP] G. unfold process_env, sources. cbn [map]. rewrite app_nil_r.
  assert (S1 : exists c1, (match getenv env (zs "CONMAN_HOST") with Some p => take_host c p | None => Ok c end) = Ok c1 /\ deciding (given EnvHost (getenv env (zs "CONMAN_HOST"))) c1 /\ c_consoles c1 = c_consoles c /\ c_user c1 = c_user c /\ c_tty c1 = c_tty c).
  { destruct (getenv env (zs "CONMAN_HOST")) as [v|]; [|exists c; auto]. destruct (take_host_ok [] c (EnvHost v) v (or_introl eq_refl) (OH v eq_refl) G) as (c1 & E & D & R). exists c1. auto. }
  destruct S1 as (c1 & -> & D1 & E1 & E2 & E3). cbn [bind]. set (S1 := given EnvHost _) in *. clearbody S1.
  assert (X2 : exists c2, (match getenv env (zs "CONMAN_PORT") with Some (x :: p) => do i <- atoi (x :: p); Ok (if 0 <? i then set_port c1 i else c1) | _ => Ok c1 end) = Ok c2 /\ deciding (S1 ++ given EnvPort (getenv env (zs "CONMAN_PORT"))) c2 /\ c_consoles c2 = c_consoles c /\ c_user c2 = c_user c /\ c_tty c2 = c_tty c).
  { destruct (getenv env (zs "CONMAN_PORT")) as [v|]; [|exists c1; rewrite app_nil_r; auto]. destruct (OP v eq_refl) as (n & A).
    assert (SK : n <= 0 -> deciding (S1 ++ [EnvPort v]) c1).
    { intros NP. destruct D1; constructor; first [ apply in_skip; [discriminate|assumption] | apply chosen_skip; [|assumption]; intros y Y; cbn [says_port says_host] in Y; first [exact Y|destruct Y as [Y1 Y2]; first [exact Y2|rewrite A in Y2; injection Y2 as ->; lia]] ]. }
    destruct v as [|x v].
    - exists c1. split; [reflexivity|]. split; [|auto]. apply SK. vm_compute in A. injection A as <-. lia.
    - rewrite A. cbn [bind]. destruct (Z.ltb_spec 0 n) as [P|P]; [|exists c1; split; [reflexivity|]; split; [exact (SK P)|auto]].
      exists (set_port c1 n). split; [reflexivity|]. split; [|auto]. destruct D1; constructor; cbn [set_port c_port c_host c_esc c_cmd c_log c_force c_join c_bcast c_quiet c_regex c_verbose];
       first [ apply chosen_hit; split; [exact P|exact A] | apply in_skip; [discriminate|assumption] | apply chosen_skip; [|assumption]; intros y Y; cbn [says_host] in Y; first [exact Y|destruct Y as [_ Y]; exact Y] ]. }
  destruct X2 as (c2 & -> & D2 & F1 & F2 & F3). cbn [bind]. rewrite app_assoc. set (S2 := S1 ++ _) in *. clearbody S2.
  destruct (getenv env (zs "CONMAN_ESCAPE")) as [[|e v]|]; cbn [given]; [exists c2| exists (set_esc c2 e) | exists c2; rewrite app_nil_r; auto]; (split; [reflexivity|]); (split; [|auto]).
  - destruct D2; constructor; first [ apply in_skip; [discriminate|assumption] | apply chosen_skip; [|assumption]; intros y Y; cbn [says_port says_host] in Y; first [exact Y|destruct Y as [_ Y]; exact Y|destruct Y as [t Y]; discriminate Y] ].
  - destruct D2; constructor; cbn [set_esc c_port c_host c_esc c_cmd c_log c_force c_join c_bcast c_quiet c_regex c_verbose];
     first [ apply in_skip; [discriminate|assumption] | apply chosen_hit; exists v; reflexivity | apply chosen_skip; [|assumption]; intros y Y; cbn [says_port says_host] in Y; first [exact Y|destruct Y as [_ Y]; exact Y] ].
Qed.

(** ** Arguments *)
Lemma cut_none c s : ~ In c s -> cut c s = (s, None).
Proof. induction s as [|x t IH]; intros N; cbn [cut]; [reflexivity|]. destruct (Z.eqb_spec x c) as [->|_]; [exfalso; apply N; left; reflexivity|]. rewrite IH by (intros I; apply N; right; exact I). reflexivity. Qed.
Lemma cut_some c s t : ~ In c s -> cut c (s ++ c :: t) = (s, Some t).
Proof. induction s as [|x s IH]; intros N; cbn [cut app]; [rewrite Z.eqb_refl; reflexivity|]. destruct (Z.eqb_spec x c) as [->|_]; [exfalso; apply N; left; reflexivity|]. rewrite IH by (intros I; apply N; right; exact I). reflexivity. Qed.
Lemma split_ok : forall ps k cs, ps <> [] -> Forall (fun p => ~ In COMMA p) ps -> (length (with_commas ps) < k)%nat -> split_names k (with_commas ps) cs = Ok (cs ++ filter nonempty ps).
Proof.
  induction ps as [|p ps IH]; intros k cs NE F K; [congruence|]. inversion F as [|? ? F1 F2]; subst. destruct k as [|k]; [lia|]. cbn [split_names].
  assert (A : forall r, (match p with [] => cs | _ :: _ => cs ++ [p] end) ++ r = cs ++ filter nonempty [p] ++ r) by (intros r; destruct p; cbn [filter nonempty app]; [reflexivity|rewrite <- app_assoc; reflexivity]).
  destruct ps as [|p2 ps].
  - cbn [with_commas]. rewrite cut_none by exact F1. specialize (A []). rewrite !app_nil_r in A. rewrite A. reflexivity.
  - change (with_commas (p :: p2 :: ps)) with (p ++ COMMA :: with_commas (p2 :: ps)) in *. rewrite cut_some by exact F1. rewrite IH; [|discriminate|exact F2|rewrite app_length in K; cbn [length] in K; lia].
    rewrite A. change (p :: p2 :: ps) with ([p] ++ p2 :: ps). rewrite filter_app. reflexivity.
Qed.
Lemma with_commas_exists : forall n s, (length s < n)%nat -> exists ps, s = with_commas ps /\ ps <> [] /\ Forall (fun p => ~ In COMMA p) ps.
Proof.
  induction n as [|n IH]; intros s L; [lia|]. pose proof (cut_ok COMMA s) as CO. destruct (cut COMMA s) as [h [q|]]; destruct CO as [N E].
  - destruct (IH q) as (ps & E2 & NE & F). { rewrite E, app_length in L. cbn [length] in L. lia. }
    exists (h :: ps). split; [|split; [discriminate|constructor; assumption]]. rewrite E, E2. destruct ps; [congruence|reflexivity].
  - exists [h]. split; [exact E|]. split; [discriminate|constructor; [exact N|constructor]].
Qed.
Lemma args_exist args : exists ns, args_give args ns.
Proof.
  assert (X : exists pss, args = map with_commas pss /\ Forall (fun ps => ps <> [] /\ Forall (fun p => ~ In COMMA p) ps) pss).
  { induction args as [|a args (pss & E & F)]; [exists []; split; [reflexivity|constructor]|]. destruct (with_commas_exists (S (length a)) a (Nat.lt_succ_diag_r _)) as (ps & E2 & R). exists (ps :: pss). split; [cbn [map]; congruence|constructor; assumption]. }
  destruct X as (pss & E & F). exists (filter nonempty (concat pss)), pss. auto.
Qed.
Lemma arguments_ok args ns cs : args_give args ns -> arguments args cs = Ok (cs ++ ns).
Proof.
  intros (pss & -> & F & ->). revert cs. induction pss as [|ps pss IH]; intros cs; cbn [map arguments concat filter]; [rewrite app_nil_r; reflexivity|].
  inversion F as [|? ? [F1 F2] F3]; subst. rewrite split_ok; [|exact F1|exact F2|lia]. cbn [bind]. rewrite (IH F3), filter_app, app_assoc. reflexivity.
Qed.
Lemma args_unique args ns ms : args_give args ns -> args_give args ms -> ns = ms.
Proof. intros A B. pose proof (arguments_ok args ns [] A) as E. rewrite (arguments_ok args ms [] B) in E. injection E as <-. reflexivity. Qed.
Lemma gives_unique iso L file ns ms : gives iso L file ns -> gives iso L file ms -> ns = ms.
Proof. intros A B. rewrite <- (repeat_length 0 L) in A, B. pose proof (file_ok iso (repeat 0 L) file ns [] A) as E. rewrite (file_ok iso (repeat 0 L) file ms [] B) in E. injection E as <-. reflexivity. Qed.
Lemma opts_unique iso L l ns ms : opts_give iso L l ns -> opts_give iso L l ms -> ns = ms.
Proof.
  intros A. revert ms. induction A as [|f l ns ks G A IH|o l ns N A IH]; intros ms B; inversion B; subst; [reflexivity| | | |]; try (exfalso; match goal with H : forall f, _ <> OFile f |- _ => eapply H; reflexivity end).
  - f_equal; [eapply gives_unique; eassumption|auto].
  - auto.
Qed.
Lemma opts_exist iso L l : Forall (opt_ok iso L) l -> exists ns, opts_give iso L l ns.
Proof.
  induction l as [|o l IH]; intros F; [exists []; constructor|]. inversion F as [|? ? F1 F2]; subst. destruct (IH F2) as (ns & O).
  destruct o; try (exists ns; apply og_other; [discriminate|exact O]). destruct F1 as (t & ks & -> & G). exists (ks ++ ns). constructor; assumption.
Qed.

(** ** The start *)
Lemma existsb_help l : existsb (fun o => match o with OHelp => true | _ => false end) l = true <-> In OHelp l.
Proof. rewrite existsb_exists. split; [intros (o & I & E); destruct o; try discriminate E; exact I|intros I; exists OHelp; auto]. Qed.
Lemma created_deciding db uid login env tty c : create_client_conf db uid login env tty = Ok c -> deciding [] c /\ c_consoles c = [] /\ who db uid login env = Ok (c_user c) /\ c_tty c = where_ tty.
Proof.
  unfold create_client_conf. destruct (who db uid login env) as [u|]; [|discriminate]. cbn [bind]. intros E. injection E as <-. cbn [c_consoles c_user c_tty]. split; [|auto].
  constructor; cbn [c_port c_host c_esc c_cmd c_log c_force c_join c_bcast c_quiet c_regex c_verbose]; first [apply chosen_nil|split; [discriminate|intros []]].
Qed.
Lemma monitor_decided S c c' cs : deciding S c -> c' = set_consoles (match c_cmd c with Monitor => set_modes c false false false | _ => c end) cs -> decided S c'.
Proof.
  intros G E. destruct G.
  assert (X : c_port c' = c_port c /\ c_host c' = c_host c /\ c_esc c' = c_esc c /\ c_cmd c' = c_cmd c /\ c_log c' = c_log c /\ c_quiet c' = c_quiet c /\ c_regex c' = c_regex c /\ c_verbose c' = c_verbose c) by (subst c'; destruct (c_cmd c) eqn:K; cbn [set_consoles set_modes c_port c_host c_esc c_cmd c_log c_quiet c_regex c_verbose]; rewrite ?K; repeat split; reflexivity).
  destruct X as (E1 & E2 & E3 & E4 & E5 & E6 & E7 & E8).
  constructor; rewrite ?E1, ?E2, ?E3, ?E4, ?E5, ?E6, ?E7, ?E8; try assumption.
  - intros N. subst c'. destruct (c_cmd c); try contradiction; assumption.
  - intros N. subst c'. destruct (c_cmd c); try contradiction; assumption.
  - intros K. subst c'. rewrite K. auto.
Qed.
Lemma start_ok iso db uid login env tty buf l args u fs ns : who db uid login env = Ok u -> env_ok env -> Forall (opt_ok iso (length buf)) l ->
  opts_give iso (length buf) l fs -> args_give args ns ->
  exists c, decided (sources env l) c /\ c_consoles c = fs ++ ns /\ c_user c = u /\ c_tty c = where_ tty /\
    start iso db uid login env tty buf l args =
      if existsb (fun o => match o with OHelp => true | _ => false end) l || match c_cmd c, c_consoles c with Query, _ => false | _, [] => true | _, _ => false end then Ok (Exit 0) else Ok (Go c).
Proof.
  intros W EO FO OG AG. unfold start. destruct (create_client_conf db uid login env tty) as [c0|k] eqn:CR.
  2:{ unfold create_client_conf in CR. rewrite W in CR. discriminate CR. }
  destruct (created_deciding _ _ _ _ _ _ CR) as (D0 & N0 & W0 & T0). rewrite W in W0. injection W0 as ->. cbn [bind].
  destruct (env_step env c0 EO D0) as (c1 & -> & D1 & N1 & U1 & T1). cbn [bind]. unfold process_cmd_line.
  destruct (options_ok iso buf l _ c1 false fs FO OG D1) as (c2 & -> & D2 & N2 & U2 & T2). cbn [bind orb].
  assert (SE : sources env [] ++ map Option_ l = sources env l) by (unfold sources; cbn [map]; rewrite app_nil_r, <- !app_assoc; reflexivity). rewrite SE in D2.
  set (c3 := match c_cmd c2 with Monitor => _ | _ => c2 end). assert (E3 : c_consoles c3 = fs) by (unfold c3; destruct (c_cmd c2); cbn [set_modes c_consoles]; rewrite N2, N1, N0; reflexivity).
  rewrite (arguments_ok args ns _ AG). cbn [bind]. rewrite E3. exists (set_consoles c3 (fs ++ ns)).
  split; [eapply monitor_decided; [exact D2|reflexivity]|]. split; [reflexivity|].
  assert (U3 : c_user c3 = c_user c0 /\ c_tty c3 = c_tty c0) by (unfold c3; destruct (c_cmd c2); cbn [set_modes c_user c_tty]; rewrite U2, U1, T2, T1; auto).
  destruct U3 as [U3 T3]. cbn [set_consoles c_user c_tty]. split; [exact U3|]. split; [rewrite T3; exact T0|]. reflexivity.
Qed.

Lemma options_early iso buf : forall a S c h fs o b, Forall (opt_ok iso (length buf)) a -> opts_give iso (length buf) a fs -> ends o -> deciding S c ->
  exists h', options iso buf c h (a ++ o :: b) = match o with OInvalid => UB Fatal | _ => Ok (Exit 0, h') end.
Proof.
  assert (APP : forall a c h c' h' m, options iso buf c h a = Ok (Go c', h') -> options iso buf c h (a ++ m) = options iso buf c' h' m).
  { induction a as [|o a IH]; intros c h c' h' m E; [cbn [options] in E; injection E as -> ->; reflexivity|]. cbn [app]. destruct o; cbn [options] in *; try discriminate E; try (eapply IH; exact E).
    - destruct (take_host c a0); [|discriminate E]. cbn [bind] in *. eapply IH; exact E.
    - destruct (get (cstr a0) 0); [|discriminate E]. cbn [bind] in *. eapply IH; exact E.
    - destruct (read_consoles_from_file iso buf (c_consoles c) f); [|discriminate E]. cbn [bind] in *. eapply IH; exact E. }
  intros a S c h fs o b F OG EN D. destruct (options_ok iso buf a S c h fs F OG D) as (c' & E & _). rewrite (APP _ _ _ _ _ _ E). destruct EN as [E1 | [E1 | E1]]; subst o; cbn [options]; [eexists; reflexivity..|exists h; reflexivity].
Qed.

(** ** Who *)
Lemma find_in {A} f (l : list A) x : find f l = Some x -> In x l /\ f x = true.
Proof. apply find_some. Qed.
Lemma who_ok db uid login env u : who db uid login env = Ok u -> exists n, In (n, uid) db /\ u = match n with [] => None | _ => Some n end.
Proof.
  unfold who. set (p := match login with Some _ => _ | None => _ end).
  assert (U : forall e : list Z * Z, (match getpwuid db uid with Some e => Ok e | None => UB Fatal end) = Ok e -> In (fst e, uid) db).
  { unfold getpwuid. intros e E. destruct (find _ db) as [[n i]|] eqn:FI; [|discriminate E]. injection E as <-. apply find_some in FI. destruct FI as [I E]. cbn [snd fst] in *. apply Z.eqb_eq in E. subst i. exact I. }
  intros E.
  assert (X : exists e : list Z * Z, In (fst e, uid) db /\ Ok (match fst e with [] => None | z :: l => Some (z :: l) end) = Ok u).
  { destruct (match p with Some n => getpwnam db n | None => None end) as [[n i]|] eqn:PW.
    - destruct (Z.eqb_spec i uid) as [->|NE]; cbn [snd] in E; [rewrite Z.eqb_refl in E; cbn [bind] in E; exists (n, uid); cbn [fst]; split; [|exact E]; destruct p as [m|]; [|discriminate PW]; unfold getpwnam in PW; apply find_some in PW; apply PW|].
      destruct (Z.eqb_spec i uid); [contradiction|]. destruct (getpwuid db uid) as [e|] eqn:GP; [|discriminate E]. cbn [bind] in E. exists e. split; [|exact E]. apply U. reflexivity.
    - destruct (getpwuid db uid) as [e|] eqn:GP; [|discriminate E]. cbn [bind] in E. exists e. split; [|exact E]. apply U. reflexivity. }
  destruct X as (e & I & E2). injection E2 as <-. exists (fst e). split; [exact I|]. destruct (fst e); reflexivity.
Qed.
Lemma who_total db uid login env n : In (n, uid) db -> exists u, who db uid login env = Ok u.
Proof.
  intros I. unfold who. set (p := match login with Some _ => _ | None => _ end).
  assert (G : exists e, getpwuid db uid = Some e). { unfold getpwuid. destruct (find _ db) as [e|] eqn:FI; [eauto|]. exfalso. apply find_none with (x := (n, uid)) in FI; [|exact I]. cbn [snd] in FI. rewrite Z.eqb_refl in FI. discriminate FI. }
  destruct G as (e & G). rewrite G. destruct (match p with Some n => getpwnam db n | None => None end) as [[m i]|]; cbn [snd]; [destruct (i =? uid)|]; cbn [bind]; eexists; reflexivity.
Qed.
Lemma getpwnam_find db n i : (forall j, In (n, j) db -> j = i) -> In (n, i) db -> getpwnam db n = Some (n, i).
Proof.
  intros U I. unfold getpwnam. destruct (find _ db) as [[m j]|] eqn:FI.
  - apply find_some in FI. destruct FI as [I2 E]. cbn [fst] in E. apply list_eqb_eq in E. subst m. rewrite (U j I2). reflexivity.
  - exfalso. apply find_none with (x := (n, i)) in FI; [|exact I]. cbn [fst] in FI. assert (T : list_eqb n n = true) by (apply list_eqb_eq; reflexivity). rewrite T in FI. discriminate FI.
Qed.
Lemma who_login db uid l env : l <> [] -> In (l, uid) db -> (forall j, In (l, j) db -> j = uid) -> who db uid (Some l) env = Ok (Some l).
Proof. intros NE I U. unfold who. rewrite (getpwnam_find db l uid U I). cbn [snd]. rewrite Z.eqb_refl. cbn [bind fst]. destruct l; [congruence|reflexivity]. Qed.

(** ** Long lines *)
Lemma line_of_full l rest : ~ In LF l -> line_of (length l) (l ++ rest) = (l, rest).
Proof.
  induction l as [|c l IH]; intros N; [destruct rest; reflexivity|]. cbn [length app line_of]. destruct (Z.eqb_spec c LF) as [->|_]; [exfalso; apply N; left; reflexivity|].
  rewrite IH by (intros I; apply N; right; exact I). reflexivity.
Qed.
Lemma lists_total ls : exists ns, lists ls ns.
Proof.
  induction ls as [|l ls (ns & IH)]; [exists []; constructor|]. destruct (strip_exists l) as (body & ST). destruct body as [|c t].
  - exists ns. eapply lists_skip; [exact ST|left; reflexivity|exact IH].
  - destruct (Z.eq_dec c HASH) as [->|NE]; [exists ns; eapply lists_skip; [exact ST|right; exists t; reflexivity|exact IH]|].
    exists ((c :: t) :: ns). eapply lists_name; [exact ST|discriminate|congruence|exact IH].
Qed.
Lemma long_comment iso buf cs t : (2 <= length buf)%nat -> (length t + 1 <= length buf)%nat -> text_ok iso t -> ~ In LF t -> stripped t t -> t <> [] -> (forall u, t <> HASH :: u) ->
  read_consoles_from_file iso buf cs (Some (HASH :: repeat 120 (length buf - 2) ++ t)) = Ok (cs ++ [t]).
Proof.
  intros LB LT TT NL ST NE NH. unfold read_consoles_from_file. rewrite read_loop_pick. set (l := HASH :: repeat 120 (length buf - 2)). change (HASH :: repeat 120 (length buf - 2) ++ t) with (l ++ t).
  assert (LL : length l = (length buf - 1)%nat) by (unfold l; cbn [length]; rewrite repeat_length; lia).
  assert (LN : ~ In LF l). { intros [I|I]; [discriminate I|]. apply repeat_spec in I. discriminate I. }
  destruct (fgets_line buf l t (l, t)) as (post & FG & LP).
  - rewrite <- LL. apply line_of_full. exact LN.
  - discriminate.
  - reflexivity.
  - lia.
  - rewrite FG. cbn [bind snd]. assert (TL : text_ok iso l). { constructor; [unfold HASH; destruct iso; lia|]. apply Forall_forall. intros c I. apply repeat_spec in I. subst c. destruct iso; lia. }
    assert (SL : stripped l l). { exists [], []. rewrite app_nil_r. split; [reflexivity|]. split; [constructor|]. split; [constructor|]. split; [intros c u E; injection E as <- _; reflexivity|].
      intros c u E. assert (I : In c l) by (rewrite E; apply in_or_app; right; left; reflexivity). destruct I as [<-|I]; [reflexivity|]. apply repeat_spec in I. subst c. reflexivity. }
    destruct (pick_ok iso l l post SL TL) as (b2 & P & L2). rewrite P. cbn [bind]. change (match l with [] => None | c :: _ => if c =? HASH then None else Some l end) with (@None (list Z)). cbv iota.
    assert (LB2 : length b2 = length buf) by (rewrite L2; exact LP).
    cbn [fst snd]. change t with (file_of [] t) at 2. apply (read_ok iso t NL TT [] [t]); [eapply lists_name; [exact ST|exact NE|exact NH|constructor]|constructor|constructor|lia|].
    unfold file_of. cbn [map concat app]. rewrite app_length, LL. lia.
Qed.
