(** Directives as text: their tokens and their effect. *)
From Coq Require Import String.
From Verif Require Import Base BaseProof Chars Fmt LexModel StrModel FnameModel FnameSpec FnameProof OptModel StrSpec QuerySpec QueryProof LexSpec LexProof
  ConfModel ConfSpec ConfLex ConfLines.
Local Open Scope Z_scope.
Local Open Scope list_scope.

Definition is_kw (E : env) (k : string) : Prop :=
  keyword (zs k) (server_conf_strs (e_ipmi E)) = kw E k /\
  match zs k with a :: w => isalpha a = true /\ forallb wordc w = true | [] => False end /\ (length (zs k) < LEX_MAX_STR)%nat.
Definition all_kws : list string :=
  ["CONSOLE"; "COREDUMP"; "COREDUMPDIR"; "DEV"; "EXECPATH"; "GLOBAL"; "KEEPALIVE"; "LOG"; "LOGDIR"; "LOGFILE"; "LOGOPTS"; "LOOPBACK"; "NAME"; "NOFILE"; "OFF"; "ON";
    "PIDFILE"; "PORT"; "RESETCMD"; "SEROPTS"; "SERVER"; "SYSLOG"; "TCPWRAPPERS"; "TESTOPTS"; "TIMESTAMP"]%string.
Definition is_kw_b (ipmi : bool) (k : string) : bool :=
  let toks := server_conf_strs ipmi in
  match position (zs k) LEX_TOK_OFFSET toks with Some n => keyword (zs k) toks =? n | None => false end &&
  match zs k with a :: w => isalpha a && forallb wordc w | [] => false end && (length (zs k) <? LEX_MAX_STR)%nat.
Lemma is_kw_ok E k : is_kw_b (e_ipmi E) k = true -> is_kw E k.
Proof.
  unfold is_kw_b, is_kw, kw. intros H. apply andb_prop in H. destruct H as [H L]. apply andb_prop in H. destruct H as [H W].
  destruct (position _ _ _); [|discriminate]. apply Z.eqb_eq in H. split; [exact H|]. split; [|apply Nat.ltb_lt; exact L].
  destruct (zs k); [discriminate|]. apply andb_prop in W. exact W.
Qed.
Lemma kws_ok E k : In k all_kws -> is_kw E k.
Proof.
  intros I. apply is_kw_ok. assert (F : forall b, forallb (is_kw_b b) all_kws = true) by (intros []; vm_compute; reflexivity).
  specialize (F (e_ipmi E)). rewrite forallb_forall in F. auto.
Qed.
Lemma ipmi_kw E : e_ipmi E = true -> is_kw E "IPMIOPTS".
Proof. intros H. apply is_kw_ok. rewrite H. vm_compute. reflexivity. Qed.

(** ** Single tokens *)
Section Tok.
Variable toks : list (list Z).

Lemma span_to (f : Z -> bool) a d r : Forall (fun c => f c = true) a -> f d = false -> span f (a ++ d :: r) = (a, d :: r).
Proof.
  intros A D. induction A as [|c a H A IH]; cbn [app span]; [rewrite D; reflexivity|]. rewrite H, IH. reflexivity.
Qed.
Lemma alpha_plain c : isalpha c = true -> blank c = false /\ (c =? HASH) = false /\ (c =? BACKSLASH) = false /\
  (c =? CR) = false /\ (c =? LF) = false /\ (c =? DQUOTE) || (c =? QUOTE) = false.
Proof.
  intros H. assert (65 <= c <= 122 /\ c <> 92).
  { unfold isalpha, isupper, islower in H. rewrite ?orb_true_iff, ?andb_true_iff, ?Z.leb_le in H. lia. }
  unfold blank, SPACE, TAB, VT, FF, HASH, BACKSLASH, CR, LF, DQUOTE, QUOTE.
  repeat split; rewrite ?orb_false_iff, ?Z.eqb_neq; lia.
Qed.
Lemma digit_plain c : digit c -> isdigit c = true /\ isalpha c = false /\ blank c = false /\ (c =? HASH) = false /\ (c =? BACKSLASH) = false /\
  (c =? CR) = false /\ (c =? LF) = false /\ (c =? DQUOTE) || (c =? QUOTE) = false /\ (c =? UNDERSCORE) = false.
Proof.
  unfold digit. intros H. unfold isdigit, isalpha, isupper, islower, blank, SPACE, TAB, VT, FF, HASH, BACKSLASH, CR, LF, DQUOTE, QUOTE, UNDERSCORE.
  repeat split; rewrite ?orb_false_iff, ?andb_true_iff, ?andb_false_iff, ?Z.leb_le, ?Z.eqb_neq, ?Z.leb_gt; lia.
Qed.

Lemma next_word a w d r : isalpha a = true -> forallb wordc w = true -> (length (a :: w) < LEX_MAX_STR)%nat -> wordc d = false ->
  next_token toks ((a :: w) ++ d :: r) = (keyword (a :: w) toks, a :: w, d :: r).
Proof.
  intros A W L D. destruct (alpha_plain a A) as (P1 & P2 & P3 & P4 & P5 & P6).
  unfold next_token. cbn [app skip]. rewrite P1, P2, P3. cbn [token]. rewrite P4, P5, P6, A. cbn [orb].
  rewrite span_to by (auto; apply Forall_forall; rewrite forallb_forall in W; auto).
  unfold cut. rewrite firstn_all2 by (cbn [length] in *; lia). reflexivity.
Qed.
Lemma next_equals r : next_token toks (EQUALS :: r) = (EQUALS, [EQUALS], r).
Proof. reflexivity. Qed.
Lemma next_lf r : next_token toks (LF :: r) = (LEX_EOL, [LF], r).
Proof. reflexivity. Qed.
Lemma next_space s : next_token toks (SPACE :: s) = next_token toks s.
Proof. reflexivity. Qed.
Lemma next_end : next_token toks [] = (LEX_EOF, [], []).
Proof. reflexivity. Qed.
Lemma next_quoted s r : quotable s -> next_token toks ((DQUOTE :: s ++ [DQUOTE]) ++ r) = (LEX_STR, s, r).
Proof.
  intros (Q1 & Q2 & Q3 & L). unfold next_token. cbn [app skip]. change (blank DQUOTE) with false. cbn iota.
  change (DQUOTE =? HASH) with false. change (DQUOTE =? BACKSLASH) with false. cbn iota. cbn [token].
  change (DQUOTE =? CR) with false. change (DQUOTE =? LF) with false. change ((DQUOTE =? DQUOTE) || (DQUOTE =? QUOTE)) with true. cbn iota.
  rewrite <- app_assoc. cbn [app]. rewrite span_to.
  - rewrite Z.eqb_refl. unfold cut. rewrite firstn_all2 by lia. reflexivity.
  - apply Forall_forall. intros c I. apply negb_true_iff. unfold is_eol. rewrite !orb_false_iff, !Z.eqb_neq. repeat split; intros ->; auto.
  - rewrite Z.eqb_refl. reflexivity.
Qed.
Lemma next_num n d r : n <> [] -> Forall digit n -> (length n < LEX_MAX_STR)%nat -> isdigit d = false ->
  next_token toks (n ++ d :: r) = (LEX_INT, n, d :: r).
Proof.
  intros N F L D. destruct n as [|a w]; [congruence|]. inversion F as [|? ? A W]; subst.
  destruct (digit_plain a A) as (P0 & P1 & P2 & P3 & P4 & P5 & P6 & P7 & P8).
  unfold next_token. cbn [app skip]. rewrite P2, P3, P4. cbn [token]. rewrite P5, P6, P7, P1, P8, P0. cbn [orb].
  assert (W' : Forall (fun c => isdigit c = true) w).
  { eapply Forall_impl; [|exact W]. intros c Hc. exact (proj1 (digit_plain c Hc)). }
  rewrite span_to by auto.
  unfold cut. rewrite firstn_all2 by (cbn [length] in *; lia). reflexivity.
Qed.

Definition T (s : list Z) : list (Z * list Z) := tokens (S (length s)) toks s.
Lemma T_step s k x r : chars_ok s -> next_token toks s = (k, x, r) -> k <> LEX_EOF -> T s = (k, x) :: T r.
Proof.
  intros C EN NE. unfold T. cbn [tokens]. rewrite EN. apply Z.eqb_neq in NE as NE'. rewrite NE'. f_equal.
  pose proof (next_progress toks s C) as H. rewrite EN in H. cbn [fst snd] in H.
  assert (CR' : chars_ok r). { pose proof (next_forall char_ok toks s C) as F. rewrite EN in F. exact F. }
  change (tokens (length s) toks r = tokens (S (length r)) toks r). destruct H as [_ H]. specialize (H NE). apply tokens_fuel; auto; lia.
Qed.
End Tok.

Definition val_tok (E : env) (v : value) : Z * list Z :=
  match v with VStr s => (LEX_STR, s) | VNum n => (LEX_INT, n) | VWord w => (kw E w, zs w) end.
Definition pair_toks (E : env) (kv : string * value) : list (Z * list Z) :=
  [(kw E (fst kv), zs (fst kv)); (EQUALS, [EQUALS]); val_tok E (snd kv)].

Lemma tokens_T E s : tokens_of E s = T (server_conf_strs (e_ipmi E)) s.
Proof. reflexivity. Qed.
Lemma kw_not E s k : In k [LEX_EOL; LEX_EOF; LEX_ERR; LEX_INT; LEX_STR; EQUALS] -> kw E s <> k.
Proof. apply kw_neq. Qed.

Lemma T_kw E k d r : chars_ok (zs k ++ d :: r) -> is_kw E k -> wordc d = false ->
  T (server_conf_strs (e_ipmi E)) (zs k ++ d :: r) = (kw E k, zs k) :: T (server_conf_strs (e_ipmi E)) (d :: r).
Proof.
  intros C (K & W & L) D. destruct (zs k) as [|a w] eqn:EK; [contradiction|]. destruct W as [A W].
  apply T_step; auto; [|apply kw_not; cbn; auto]. rewrite next_word by auto. rewrite K. reflexivity.
Qed.
Lemma T_space E r : chars_ok r -> T (server_conf_strs (e_ipmi E)) (SPACE :: r) = T (server_conf_strs (e_ipmi E)) r.
Proof.
  intros C. unfold T. transitivity (tokens (S (S (length r))) (server_conf_strs (e_ipmi E)) r); [reflexivity|]. apply tokens_fuel; auto; lia.
Qed.
Lemma chars_tail c s : chars_ok (c :: s) -> chars_ok s.
Proof. intros H. inversion H. auto. Qed.
Lemma chars_app a b : chars_ok (a ++ b) -> chars_ok b.
Proof. intros H. apply Forall_app in H. apply H. Qed.

Lemma T_val E v d r : d = SPACE \/ d = LF -> chars_ok (show v ++ d :: r) -> value_ok E v ->
  T (server_conf_strs (e_ipmi E)) (show v ++ d :: r) = val_tok E v :: T (server_conf_strs (e_ipmi E)) (d :: r).
Proof.
  intros D C V. assert (DW : wordc d = false /\ isdigit d = false) by (destruct D as [-> | ->]; split; reflexivity). destruct DW as [DW DD].
  destruct v as [s|n|w]; cbn [show val_tok value_ok] in *.
  - apply T_step; auto; [|vm_compute; congruence]. apply next_quoted. exact V.
  - destruct V as (N & F & L). apply T_step; auto; [|vm_compute; congruence]. apply next_num; auto.
  - apply T_kw; auto. apply kws_ok. cbn in V. destruct V as [<-|[<-|[]]]; cbn; tauto.
Qed.

Lemma T_pairs E kvs : Forall (fun kv => is_kw E (fst kv) /\ value_ok E (snd kv)) kvs -> forall r,
  chars_ok (flat_map (fun kv => SPACE :: zs (fst kv) ++ EQUALS :: show (snd kv)) kvs ++ LF :: r) ->
  T (server_conf_strs (e_ipmi E)) (flat_map (fun kv => SPACE :: zs (fst kv) ++ EQUALS :: show (snd kv)) kvs ++ LF :: r) =
  flat_map (pair_toks E) kvs ++ T (server_conf_strs (e_ipmi E)) (LF :: r).
Proof.
  induction 1 as [|[k v] kvs [K V] F IH]; intros r C; [reflexivity|]. cbn [flat_map fst snd pair_toks] in *.
  assert (NX : exists d q, flat_map (fun kv => SPACE :: zs (fst kv) ++ EQUALS :: show (snd kv)) kvs ++ LF :: r = d :: q /\ (d = SPACE \/ d = LF)).
  { destruct kvs as [|kv kvs]; cbn [flat_map app]; eauto. }
  rewrite <- !app_assoc in *. cbn [app] in *. rewrite <- !app_assoc in *. cbn [app] in *.
  apply chars_tail in C as C1. rewrite T_space by exact C1. rewrite T_kw by auto.
  pose proof (chars_app _ _ C1) as C2. rewrite (T_step _ _ EQUALS [EQUALS] _ C2 (next_equals _ _)) by (vm_compute; congruence).
  apply chars_tail in C2 as C3. pose proof (chars_app _ _ C3) as C4. destruct NX as (d & q & EQ & D). rewrite EQ in *. rewrite T_val by auto.
  rewrite <- EQ, IH by (rewrite EQ; exact C4). reflexivity.
Qed.

Lemma directive_toks E d kvs : is_kw E d -> Forall (fun kv => is_kw E (fst kv) /\ value_ok E (snd kv)) kvs -> chars_ok (directive d kvs) ->
  tokens_of E (directive d kvs) = (kw E d, zs d) :: flat_map (pair_toks E) kvs ++ [(LEX_EOL, [LF]); (LEX_EOF, [])].
Proof.
  intros D F C. rewrite tokens_T. unfold directive in *.
  assert (NX : exists e q, flat_map (fun kv => SPACE :: zs (fst kv) ++ EQUALS :: show (snd kv)) kvs ++ [LF] = e :: q /\ (e = SPACE \/ e = LF)).
  { destruct kvs as [|kv kvs]; cbn [flat_map app]; eauto. }
  pose proof (chars_app _ _ C) as C1. destruct NX as (e & q & EQ & EE). rewrite EQ in *.
  rewrite T_kw; auto; [|destruct EE as [-> | ->]; reflexivity]. rewrite <- EQ in *. f_equal. rewrite T_pairs by auto. reflexivity.
Qed.

Lemma directive_ends E d kvs : Forall (fun kv => is_kw E (fst kv) /\ value_ok E (snd kv)) kvs -> is_kw E d -> ends_line (directive d kvs).
Proof.
  intros F (_ & D & _). exists (zs d ++ flat_map (fun kv => SPACE :: zs (fst kv) ++ EQUALS :: show (snd kv)) kvs).
  split; [unfold directive; rewrite app_assoc; reflexivity|].
  assert (L : exists u z, zs d ++ flat_map (fun kv => SPACE :: zs (fst kv) ++ EQUALS :: show (snd kv)) kvs = u ++ [z] /\ z <> BACKSLASH /\ z <> CR).
  { assert (LW : forall w, Forall (fun c => wordc c = true) w -> w <> [] -> exists u z, w = u ++ [z] /\ z <> BACKSLASH /\ z <> CR).
    { intros w W N. destruct (exists_last N) as (u & z & ->). exists u, z. split; [auto|]. apply Forall_app in W. destruct W as [_ W]. inversion W; subst.
      split; intros ->; discriminate. }
    assert (KW : Forall (fun c => wordc c = true) (zs d) /\ zs d <> []).
    { destruct (zs d) as [|a w]; [contradiction|]. destruct D as [A W]. split; [|discriminate]. constructor; [|apply Forall_forall; rewrite forallb_forall in W; auto].
      unfold wordc, isalnum. rewrite A. reflexivity. }
    destruct kvs as [|kv kvs] using rev_ind; [cbn [flat_map]; rewrite app_nil_r; apply LW; apply KW|].
    clear IHkvs. rewrite flat_map_app. cbn [flat_map]. rewrite app_nil_r. apply Forall_app in F. destruct F as [_ F]. inversion F as [|? ? [K V] _]; subst.
    assert (VL : exists u z, show (snd kv) = u ++ [z] /\ z <> BACKSLASH /\ z <> CR).
    { destruct (snd kv) as [s|n|w]; cbn [show value_ok] in *.
      - exists (DQUOTE :: s), DQUOTE. split; [reflexivity|]. split; discriminate.
      - destruct V as (N & W & _). apply LW; auto. eapply Forall_impl; [|exact W]. intros c Hc. unfold wordc, isalnum. destruct (digit_plain c Hc) as (-> & _).
        rewrite orb_true_r. reflexivity.
      - cbn in V. destruct V as [<-|[<-|[]]]; [exists [79], 78|exists [79;70], 70]; repeat split; discriminate. }
    destruct VL as (u & z & -> & Z1 & Z2).
    exists (zs d ++ flat_map (fun kv => SPACE :: zs (fst kv) ++ EQUALS :: show (snd kv)) kvs ++ SPACE :: zs (fst kv) ++ EQUALS :: u), z.
    split; [|auto]. rewrite <- !app_assoc. cbn [app]. rewrite <- !app_assoc. cbn [app]. reflexivity. }
  destruct L as (u & z & -> & Z1 & Z2). intros q. split.
  - intros H. apply app_inj_tail in H. destruct H. auto.
  - intros H. change (q ++ [BACKSLASH; CR]) with (q ++ [BACKSLASH] ++ [CR]) in H. rewrite app_assoc in H. apply app_inj_tail in H. destruct H. auto.
Qed.
