(** Proofs about the log formatting. *)
From Verif Require Import Base BaseProof RingModel RingSpec RingProof LogModel LogSpec.
Set Implicit Arguments.

Section Log.
Variable SZ : nat.
Variable dbg : bool.
Variable clock : nat -> list Z.
Variable p : logopts.

Definition clock_ok : Prop :=
  forall i, length (clock i) <= 21 /\ (dbg = true -> length (clock i) = 20).

Definition ts (k : nat) : list Z := if lo_timestamp p then clock k else [].
Definition show (c : Z) : list Z := if lo_sanitize p then shown c else [c].

(** The state machine without buffers. *)
Definition pbyte (s : linestate) (k : nat) (c : Z) : list Z * linestate * nat :=
  if (c =? CR)%Z then
    match s with
    | LineData => ([], LineCR, k)
    | LineInit => (ts k, LineCR, S k)
    | _ => ([], s, k)
    end
  else if (c =? LF)%Z then
    match s with
    | LineInit | LineLF => (ts k ++ CRLF, LineLF, S k)
    | _ => (CRLF, LineLF, k)
    end
  else if (c =? NUL)%Z && (match s with LineCR | LineLF => true | _ => false end)
  then ([], s, k)
  else match s with
       | LineData => (show c, LineData, k)
       | LineCR => (CRLF ++ ts k ++ show c, LineData, S k)
       | _ => (ts k ++ show c, LineData, S k)
       end.

Fixpoint prun (s : linestate) (k : nat) (l : list Z) : list Z * linestate * nat :=
  match l with
  | [] => ([], s, k)
  | c :: l' =>
      let '(o1, s1, k1) := pbyte s k c in
      let '(o2, s2, k2) := prun s1 k1 l' in
      (o1 ++ o2, s2, k2)
  end.

Definition content (t : lst) : list Z := concat (l_out t) ++ firstn (l_q t) (l_buf t).

(** [t'] is [t] with [o] written behind it. *)
Definition ext (t t' : lst) (o : list Z) : Prop :=
  length (l_buf t') = SZ - 1 /\ l_q t' = l_q t + length o /\ l_q t' <= SZ - 1 /\
  l_out t' = l_out t /\ content t' = content t ++ o.

Lemma ext_refl t : length (l_buf t) = SZ - 1 -> l_q t <= SZ - 1 -> ext t t [].
Proof. intros; unfold ext. rewrite app_nil_r. cbn. repeat split; auto; lia. Qed.

Lemma ext_trans t1 t2 t3 a b : ext t1 t2 a -> ext t2 t3 b -> ext t1 t3 (a ++ b).
Proof.
  intros (A1 & A2 & A3 & A4 & A5) (B1 & B2 & B3 & B4 & B5). unfold ext.
  rewrite app_length, B5, A5, B4, A4, app_assoc. repeat split; auto; lia.
Qed.

Lemma ext_ls t t' o s : ext t t' o -> ext t (set_ls s t') o.
Proof. intros H; exact H. Qed.

Lemma ext_ls_l t t' o s : ext (set_ls s t) t' o -> ext t t' o.
Proof. intros H; exact H. Qed.

Lemma blit_content (b d : list Z) q :
  q + length d <= length b ->
  firstn (q + length d) (firstn q b ++ d ++ skipn (q + length d) b) = firstn q b ++ d.
Proof.
  intros H. rewrite app_assoc. rewrite firstn_app.
  rewrite app_length, firstn_length, Nat.min_l by lia.
  rewrite firstn_all2 by (rewrite app_length, firstn_length; lia).
  replace (q + length d - (q + length d)) with 0 by lia. rewrite firstn_O, app_nil_r. reflexivity.
Qed.

Lemma blit_len (b d : list Z) q :
  q + length d <= length b ->
  length (firstn q b ++ d ++ skipn (q + length d) b) = length b.
Proof. intros. rewrite !app_length, firstn_length, skipn_length. lia. Qed.

Lemma emit_ok c t : length (l_buf t) = SZ - 1 -> l_q t < SZ - 1 ->
  exists t', emit c t = Ok t' /\ ext t t' [c] /\ l_ls t' = l_ls t /\ l_k t' = l_k t.
Proof.
  intros HL Hq. unfold emit, put, blit. cbn [length].
  destruct (Nat.leb_spec (l_q t + 1) (length (l_buf t))); [|lia]. cbn [bind].
  eexists; split; [reflexivity|]. cbn [l_ls l_k]. split; [|auto].
  unfold ext, content; cbn [l_buf l_q l_out length].
  pose proof (@blit_len (l_buf t) [c] (l_q t)) as E. cbn [length] in E.
  split; [rewrite E; lia|]. split; [lia|]. split; [lia|]. split; [reflexivity|].
  pose proof (@blit_content (l_buf t) [c] (l_q t)) as F. cbn [length] in F.
  replace (S (l_q t)) with (l_q t + 1) by lia. rewrite F by lia. now rewrite app_assoc.
Qed.

Lemma stamp_ok t k : clock_ok -> length (l_buf t) = SZ - 1 -> l_q t + 23 <= SZ - 1 ->
  (lo_timestamp p = true -> l_k t = k) ->
  exists t', stamp SZ dbg clock p t = Ok t' /\ ext t t' (ts k) /\ l_ls t' = l_ls t /\
    (lo_timestamp p = true -> l_k t' = S k) /\ l_q t' <= l_q t + 21.
Proof.
  intros HC HL Hq Hk. unfold stamp, ts. destruct (lo_timestamp p) eqn:ET.
  2:{ exists t. split; [reflexivity|]. split; [apply ext_refl; lia|]. split; [reflexivity|].
      split; [discriminate|lia]. }
  rewrite (Hk eq_refl) in *. destruct (HC k) as [H1 H2].
  unfold write_time_string.
  destruct (Nat.leb_spec (SZ - 1 - l_q t) 20); [lia|].
  destruct (Nat.ltb_spec (length (clock k)) (SZ - 1 - l_q t)); [|lia].
  unfold blit. destruct (Nat.leb_spec (l_q t + length (clock k ++ [0%Z])) (length (l_buf t))) as [Hb|Hb];
    [|rewrite app_length in Hb; cbn [length] in Hb; lia].
  cbn [bind].
  assert (HA : (match clock k with [] => Ok tt | _ :: _ => assert_if dbg (length (clock k) =? 20) end) = Ok tt).
  { destruct (clock k) as [|x l] eqn:E; [reflexivity|]. rewrite <- E in *.
    unfold assert_if. destruct dbg; [|reflexivity]. rewrite H2 by reflexivity. reflexivity. }
  rewrite HA. cbn [bind fst snd].
  eexists; split; [reflexivity|]. cbn [l_ls l_k l_q]. split; [|split; [reflexivity|split; [auto|lia]]].
  unfold ext, content; cbn [l_buf l_q l_out].
  split; [rewrite blit_len by exact Hb; exact HL|].
  split; [reflexivity|]. split; [lia|]. split; [reflexivity|].
  rewrite <- (app_assoc (concat (l_out t))). f_equal.
  pose proof (@blit_content (l_buf t) (clock k ++ [0%Z]) (l_q t) Hb) as F.
  apply (f_equal (firstn (l_q t + length (clock k)))) in F.
  rewrite firstn_firstn, Nat.min_l in F by (rewrite app_length; cbn [length]; lia).
  rewrite F. rewrite app_assoc, firstn_app, app_length, firstn_length, Nat.min_l by lia.
  rewrite firstn_all2 by (rewrite app_length, firstn_length; lia).
  replace (l_q t + length (clock k) - (l_q t + length (clock k))) with 0 by lia.
  now rewrite firstn_O, app_nil_r.
Qed.

Lemma shown_model c : byte_ok c ->
  shown c = (let c7 := c mod 128 in let meta := 128 <=? c in
             if c7 <? 32 then [if meta then 126 else 94; c7 + 64]
             else if c7 =? 127 then [if meta then 126 else 94; 63]
             else if meta then [96; c7] else [c7])%Z.
Proof.
  intros H. unfold byte_ok in H. unfold shown. destruct (Z.leb_spec 128 c) as [Hc|Hc].
  - replace (c mod 128)%Z with (c - 128)%Z; [reflexivity|].
    apply (Z.mod_unique c 128 1); lia.
  - rewrite Z.mod_small by lia. reflexivity.
Qed.

Lemma emit_data_ok c t : byte_ok c -> length (l_buf t) = SZ - 1 -> l_q t + 2 <= SZ - 1 ->
  exists t', emit_data p c t = Ok t' /\ ext t t' (show c) /\ l_ls t' = l_ls t /\ l_k t' = l_k t /\
    l_q t' <= l_q t + 2.
Proof.
  intros Hc HL Hq.
  assert (E1 : forall x, exists t', emit x t = Ok t' /\ ext t t' [x] /\ l_ls t' = l_ls t /\
     l_k t' = l_k t /\ l_q t' <= l_q t + 2).
  { intros x. destruct (@emit_ok x t HL) as (t' & A & B & C & D); [lia|]. exists t'. repeat split; auto; try apply B.
    destruct B as (_ & B & _). cbn [length] in B. lia. }
  assert (E2 : forall x y, exists t', (do t1 <- emit x t; emit y t1) = Ok t' /\ ext t t' [x; y] /\
     l_ls t' = l_ls t /\ l_k t' = l_k t /\ l_q t' <= l_q t + 2).
  { intros x y. destruct (@emit_ok x t HL) as (t1 & A & B & C & D); [lia|]. rewrite A. cbn [bind].
    assert (B' := B). destruct B' as (B1 & B2 & _). cbn [length] in B2.
    destruct (@emit_ok y t1) as (t2 & A2 & B3 & C2 & D2); [lia|lia|].
    exists t2. split; [exact A2|]. split; [apply (ext_trans B B3)|]. rewrite C2, D2. split; [auto|]. split; [auto|].
    destruct B3 as (_ & B3 & _). cbn [length] in B3. lia. }
  unfold emit_data, show. destruct (lo_sanitize p); [|apply E1].
  rewrite shown_model by exact Hc. cbv zeta.
  destruct (c mod 128 <? 32)%Z; [apply E2|].
  destruct (c mod 128 =? 127)%Z; [apply E2|].
  destruct (128 <=? c)%Z; [apply E2|]. cbn [bind]. apply E1.
Qed.

Lemma crlf_ok t : length (l_buf t) = SZ - 1 -> l_q t + 2 <= SZ - 1 ->
  exists t', (do a <- emit CR t; emit LF a) = Ok t' /\ ext t t' CRLF /\ l_ls t' = l_ls t /\ l_k t' = l_k t.
Proof.
  intros HL Hq. destruct (@emit_ok CR t HL) as (t1 & A & B & C & D); [lia|]. rewrite A. cbn [bind].
  assert (B' := B). destruct B' as (B1 & B2 & _). cbn [length] in B2.
  destruct (@emit_ok LF t1) as (t2 & A2 & B3 & C2 & D2); [lia|lia|].
  exists t2. split; [exact A2|]. split; [apply (ext_trans B B3)|]. rewrite C2, D2. auto.
Qed.

Lemma byte_ok_spec c t k : clock_ok -> byte_ok c -> length (l_buf t) = SZ - 1 ->
  l_q t + MINBUF <= SZ - 1 -> (lo_timestamp p = true -> l_k t = k) ->
  exists t', log_byte SZ dbg clock p c t = Ok t' /\
    ext t t' (fst (fst (pbyte (l_ls t) k c))) /\
    l_ls t' = snd (fst (pbyte (l_ls t) k c)) /\
    (lo_timestamp p = true -> l_k t' = snd (pbyte (l_ls t) k c)).
Proof.
  intros HC Hb HL Hq Hk. unfold MINBUF in Hq. unfold log_byte, pbyte.
  assert (R : ext t t []) by (apply ext_refl; lia).
  destruct (Z.eqb_spec c CR) as [->|N1].
  { destruct (l_ls t) eqn:EL; cbn [fst snd]; try (eexists; split; [reflexivity|]; split; [exact R|auto]; fail).
    destruct (@stamp_ok t k HC HL) as (t1 & A & B & C & D & _); [lia|exact Hk|].
    rewrite A. cbn [bind]. eexists; split; [reflexivity|]. split; [exact B|]. auto. }
  destruct (Z.eqb_spec c LF) as [->|N2].
  { assert (ST : forall (b : bool), exists t1, (if b then stamp SZ dbg clock p t else Ok t) = Ok t1 /\
       ext t t1 (if b then ts k else []) /\ (lo_timestamp p = true -> l_k t1 = if b then S k else k) /\
       l_q t1 <= l_q t + 21).
    { intros [|].
      - destruct (@stamp_ok t k HC HL) as (t1 & A & B & C & D & E); [lia|exact Hk|]. exists t1; auto.
      - exists t. split; [reflexivity|]. split; [exact R|]. split; [exact Hk|lia]. }
    set (b := match l_ls t with LineInit | LineLF => true | _ => false end).
    destruct (ST b) as (t1 & A & B & D & E).
    assert (A' : (match l_ls t with LineInit | LineLF => stamp SZ dbg clock p t | _ => Ok t end) = Ok t1)
      by (unfold b in A; destruct (l_ls t); exact A).
    rewrite A'. cbn [bind].
    destruct (@crlf_ok t1) as (t2 & A2 & B2 & C2 & D2); [apply B|lia|].
    assert (A3 : (do t2 <- emit CR t1; do t3 <- emit LF t2; Ok (set_ls LineLF t3)) = Ok (set_ls LineLF t2)).
    { destruct (emit CR t1); cbn [bind] in A2 |- *; [|discriminate]. now rewrite A2. }
    rewrite A3. eexists; split; [reflexivity|].
    pose proof (ext_trans B B2) as X.
    unfold b in *. destruct (l_ls t); cbn [fst snd app] in *; (split; [exact X|]);
      (split; [reflexivity|]); intros HT; cbn [l_k set_ls]; rewrite D2; auto. }
  destruct (andb (c =? NUL)%Z (match l_ls t with LineCR | LineLF => true | _ => false end)).
  { eexists; split; [reflexivity|]. auto. }
  assert (FIN : forall t2 o j, ext t t2 o -> l_q t2 + 2 <= SZ - 1 -> (lo_timestamp p = true -> l_k t2 = j) ->
     exists t', emit_data p c (set_ls LineData t2) = Ok t' /\ ext t t' (o ++ show c) /\ l_ls t' = LineData /\
     (lo_timestamp p = true -> l_k t' = j)).
  { intros t2 o j X Y Z. destruct (@emit_data_ok c (set_ls LineData t2) Hb) as (t' & A & B & C & D & _);
      [apply X|exact Y|].
    exists t'. split; [exact A|]. split; [apply (ext_trans X (ext_ls_l B))|]. split; [rewrite C; reflexivity|].
    rewrite D. exact Z. }
  destruct (l_ls t) eqn:EL; cbn [fst snd].
  - cbn [bind]. rewrite EL.
    destruct (@stamp_ok t k HC HL) as (t1 & A & B & C & D & E); [lia|exact Hk|].
    rewrite A. cbn [bind]. apply (FIN t1 (ts k) (S k) B); [lia|auto].
  - cbn [bind]. rewrite EL. cbn [bind]. apply (FIN t [] k R); [lia|auto].
  - destruct (@crlf_ok t HL) as (t1 & A & B & C & D); [lia|]. rewrite A. cbn [bind]. rewrite C, EL.
    assert (B' := B). destruct B' as (B1 & B2 & _). change (length CRLF) with 2 in B2.
    destruct (@stamp_ok t1 k HC B1) as (t2 & A2 & B3 & C2 & D2 & E); [lia|now rewrite D|].
    rewrite A2. cbn [bind]. rewrite app_assoc.
    apply (FIN t2 (CRLF ++ ts k) (S k)); [apply (ext_trans B B3)|lia|auto].
  - cbn [bind]. rewrite EL.
    destruct (@stamp_ok t k HC HL) as (t1 & A & B & C & D & E); [lia|exact Hk|].
    rewrite A. cbn [bind]. apply (FIN t1 (ts k) (S k) B); [lia|auto].
Qed.

(** At the head of the loop. *)
Definition head (t : lst) : Prop := length (l_buf t) = SZ - 1 /\ l_q t + MINBUF <= SZ - 1.

Definition msgs_ok (ms : list (list Z)) : Prop := Forall (fun m => length m <= SZ - 1) ms.

Lemma loop_ok src : clock_ok -> MINBUF <= SZ - 1 -> bytes_ok src -> forall t k,
  head t -> msgs_ok (l_out t) -> (lo_timestamp p = true -> l_k t = k) ->
  exists t', log_loop SZ dbg clock p src t = Ok t' /\ head t' /\ msgs_ok (l_out t') /\
    content t' = content t ++ fst (fst (prun (l_ls t) k src)) /\
    l_ls t' = snd (fst (prun (l_ls t) k src)) /\
    (lo_timestamp p = true -> l_k t' = snd (prun (l_ls t) k src)).
Proof.
  intros HC HM Hb. induction Hb as [|c src Hc Hb IH]; intros t k [HL Hq] Hms Hk.
  - exists t. cbn. rewrite app_nil_r. split; [reflexivity|]. split; [split; assumption|auto].
  - cbn [log_loop prun].
    destruct (@byte_ok_spec c t k HC Hc HL Hq Hk) as (t1 & A & B & C & D).
    destruct (pbyte (l_ls t) k c) as [[o1 s1] k1]. cbn [fst snd] in B, C, D.
    destruct B as (B1 & B2 & B3 & B4 & B5).
    rewrite A. cbn [bind].
    assert (X : exists t2, (if SZ - 1 - l_q t1 <? MINBUF
                            then do _ <- assert_ (l_q t1 <=? SZ - 1); flush t1 else Ok t1) = Ok t2 /\
              head t2 /\ msgs_ok (l_out t2) /\ content t2 = content t1 /\ l_ls t2 = l_ls t1 /\ l_k t2 = l_k t1).
    { destruct (Nat.ltb_spec (SZ - 1 - l_q t1) MINBUF).
      - destruct (Nat.leb_spec (l_q t1) (SZ - 1)); [|lia]. cbn [assert_ bind].
        unfold flush. rewrite slice_ok by lia. cbn [bind skipn].
        eexists; split; [reflexivity|]. unfold head, content. cbn [l_buf l_q l_out l_ls l_k].
        split; [split; [exact B1|lia]|]. split.
        + unfold msgs_ok. apply Forall_app. rewrite B4. split; [exact Hms|]. constructor; [|constructor].
          rewrite firstn_length. lia.
        + rewrite concat_app. cbn [concat firstn]. rewrite !app_nil_r. auto.
      - exists t1. split; [reflexivity|]. split; [split; [exact B1|lia]|]. rewrite B4. auto. }
    destruct X as (t2 & A2 & H2 & M2 & C2 & L2 & K2). rewrite A2. cbn [bind].
    destruct (IH t2 k1 H2 M2) as (t' & A3 & H3 & M3 & C3 & L3 & K3); [rewrite K2; exact D|].
    exists t'. split; [exact A3|]. split; [exact H3|]. split; [exact M3|].
    rewrite L2, C in C3, L3, K3. destruct (prun s1 k1 src) as [[o2 s2] k2]. cbn [fst snd] in *.
    rewrite C3, C2, B5, app_assoc. auto.
Qed.

Lemma format_ok src junk ls k j : clock_ok -> MINBUF <= SZ - 1 -> bytes_ok src -> length junk = SZ - 1 ->
  got_processing p = true -> (lo_timestamp p = true -> j = k) ->
  exists ms j', log_format SZ dbg clock p junk src ls j =
      Ok (ms, snd (fst (prun ls k src)), j') /\
    concat ms = fst (fst (prun ls k src)) /\ msgs_ok ms /\
    (lo_timestamp p = true -> j' = snd (prun ls k src)).
Proof.
  intros HC HM Hb HJ HG Hk. unfold log_format.
  destruct (Nat.leb_spec MINBUF (SZ - 1)); [|lia]. cbn [assert_ bind]. rewrite HG. cbn [negb].
  destruct (@loop_ok src HC HM Hb (mkLst ls junk 0 j []) k) as (t & A & [H1 H2] & M & C & L & K);
    [split; cbn; [exact HJ|lia]|constructor|exact Hk|].
  cbn [l_ls] in *. rewrite A. cbn [bind].
  destruct (Nat.leb_spec (l_q t) (SZ - 1)); [|lia]. cbn [assert_ bind].
  unfold flush. rewrite slice_ok by lia. cbn [bind skipn l_out l_ls l_k].
  rewrite L. do 2 eexists; split; [reflexivity|]. split; [|split; [|exact K]].
  - rewrite concat_app. cbn [concat]. rewrite app_nil_r. exact C.
  - apply Forall_app. split; [exact M|]. constructor; [|constructor]. rewrite firstn_length. lia.
Qed.

(** ** The pure machine *)

Lemma prun_app a b s k :
  prun s k (a ++ b) =
  (let '(o1, s1, k1) := prun s k a in let '(o2, s2, k2) := prun s1 k1 b in (o1 ++ o2, s2, k2)).
Proof.
  revert s k. induction a as [|c a IH]; intros s k; cbn [app prun].
  - now destruct (prun s k b) as [[? ?] ?].
  - destruct (pbyte s k c) as [[o1 s1] k1]. rewrite IH.
    destruct (prun s1 k1 a) as [[o2 s2] k2]. destruct (prun s2 k2 b) as [[o3 s3] k3].
    now rewrite app_assoc.
Qed.

Lemma pbyte_text s k c : (c <> 13 /\ c <> 10)%Z -> s = LineData ->
  pbyte s k c = (show c, LineData, k).
Proof.
  intros [A B] ->. unfold pbyte, CR, LF.
  destruct (Z.eqb_spec c 13); [contradiction|]. destruct (Z.eqb_spec c 10); [contradiction|].
  now rewrite andb_false_r.
Qed.

Lemma prun_text b k : text b -> prun LineData k b = (flat_map show b, LineData, k).
Proof.
  intros H. induction H as [|c b Hc _ IH]; [reflexivity|]. cbn [prun flat_map].
  rewrite pbyte_text by auto. now rewrite IH.
Qed.

Lemma prun_text_init b k : text b -> b <> [] -> prun LineInit k b = (ts k ++ flat_map show b, LineData, S k).
Proof.
  intros H N. destruct H as [|c b Hc H]; [congruence|]. cbn [prun flat_map].
  replace (pbyte LineInit k c) with (ts k ++ show c, LineData, S k).
  - rewrite prun_text by exact H. now rewrite app_assoc.
  - unfold pbyte, CR, LF. destruct Hc as [A B]. destruct (Z.eqb_spec c 13); [contradiction|].
    destruct (Z.eqb_spec c 10); [contradiction|]. now rewrite andb_false_r.
Qed.

Lemma prun_pad pad s k : padding pad -> (s = LineCR \/ s = LineLF) -> prun s k pad = ([], s, k).
Proof.
  intros H Hs. induction H as [|c pad Hc _ IH]; [reflexivity|]. cbn [prun].
  replace (pbyte s k c) with (@nil Z, s, k); [now rewrite IH|].
  unfold pbyte, CR, LF, NUL. destruct Hs as [-> | ->]; destruct Hc as [-> | ->]; reflexivity.
Qed.

(** A line up to its CR *)
Lemma prun_body_cr b pad k : text b -> padding pad ->
  prun LineInit k (b ++ 13%Z :: pad) = (ts k ++ flat_map show b, LineCR, S k).
Proof.
  intros Hb Hp. destruct b as [|c b].
  - cbn [app prun flat_map]. cbn. rewrite prun_pad by auto. now rewrite !app_nil_r.
  - rewrite prun_app, prun_text_init by (auto; discriminate). cbn [prun].
    replace (pbyte LineData (S k) 13) with (@nil Z, LineCR, S k) by reflexivity.
    rewrite prun_pad by auto. now rewrite app_nil_r.
Qed.

(** A line up to its LF *)
Lemma prun_body_lf b brk pad k : text b ->
  (brk = [] \/ exists p0, brk = 13%Z :: p0 /\ padding p0) -> padding pad ->
  prun LineInit k (b ++ brk ++ 10%Z :: pad) = (ts k ++ flat_map show b ++ CRLF, LineLF, S k).
Proof.
  intros Hb Hk Hp. destruct Hk as [-> | (p0 & -> & H0)].
  - cbn [app]. rewrite prun_app. destruct b as [|c b].
    + cbn [prun flat_map app]. cbn. rewrite prun_pad by auto. now rewrite app_nil_r.
    + rewrite prun_text_init by (auto; discriminate). cbn [prun].
      replace (pbyte LineData (S k) 10) with (CRLF, LineLF, S k) by reflexivity.
      rewrite prun_pad by auto. now rewrite app_nil_r, app_assoc.
  - rewrite app_assoc, prun_app, prun_body_cr by auto. cbn [prun].
    replace (pbyte LineCR (S k) 10) with (CRLF, LineLF, S k) by reflexivity.
    rewrite prun_pad by auto. now rewrite app_nil_r, app_assoc.
Qed.

Lemma prun_lf_init l k : l <> [] -> starts_ok l -> prun LineLF k l = prun LineInit k l.
Proof.
  intros N H. destruct l as [|c l]; [congruence|]. cbn in H. cbn [prun].
  replace (pbyte LineLF k c) with (pbyte LineInit k c); [reflexivity|].
  unfold pbyte, CR, LF, NUL. destruct H as [A B]. destruct (Z.eqb_spec c 13); [contradiction|].
  destruct (c =? 10)%Z; [reflexivity|]. destruct (Z.eqb_spec c 0); [contradiction|]. reflexivity.
Qed.

Lemma prun_cr_init l k : starts_text l ->
  prun LineCR k l = (let '(o, s, k') := prun LineInit k l in (CRLF ++ o, s, k')).
Proof.
  intros H. destruct l as [|c l]; [destruct H|]. cbn in H. destruct H as (A & B & C). cbn [prun].
  replace (pbyte LineCR k c) with (CRLF ++ ts k ++ show c, LineData, S k).
  - replace (pbyte LineInit k c) with (ts k ++ show c, LineData, S k).
    + destruct (prun LineData (S k) l) as [[o s] k']. now rewrite <- !app_assoc.
    + unfold pbyte, CR, LF, NUL. destruct (Z.eqb_spec c 13); [contradiction|].
      destruct (Z.eqb_spec c 10); [contradiction|]. now rewrite andb_false_r.
  - unfold pbyte, CR, LF, NUL. destruct (Z.eqb_spec c 13); [contradiction|].
    destruct (Z.eqb_spec c 10); [contradiction|]. destruct (Z.eqb_spec c 0); [contradiction|]. reflexivity.
Qed.

Lemma prun_splits s ls last k : splits s ls last ->
  fst (fst (prun LineInit k s)) = render show ts k ls last /\
  snd (prun LineInit k s) = k + lines_begun ls last.
Proof.
  intros H. revert k. induction H as [|b Hb N|b pad Hb Hp|b brk pad rest ls last Hb Hk Hp Hr H IH
                                      |b pad rest ls last Hb Hp Hr H IH]; intros k.
  - cbn. split; [reflexivity|unfold lines_begun; cbn; lia].
  - rewrite prun_text_init by auto. cbn. split; [reflexivity|lia].
  - rewrite prun_body_cr by auto. cbn. split; [reflexivity|lia].
  - replace (b ++ brk ++ 10%Z :: pad ++ rest) with ((b ++ brk ++ 10%Z :: pad) ++ rest)
      by (rewrite <- !app_assoc; reflexivity).
    rewrite prun_app, prun_body_lf by auto. specialize (IH (S k)).
    assert (E : fst (fst (prun LineLF (S k) rest)) = fst (fst (prun LineInit (S k) rest)) /\
                snd (prun LineLF (S k) rest) = snd (prun LineInit (S k) rest)).
    { destruct rest; [split; reflexivity|]. rewrite prun_lf_init by (auto; discriminate). auto. }
    destruct E as [E1 E2]. destruct (prun LineLF (S k) rest) as [[o2 s2] k2]. cbn [fst snd] in *.
    destruct IH as [I1 I2]. cbn [render]. rewrite E1, I1, E2, I2. unfold lines_begun. cbn [length].
    split; [now rewrite <- !app_assoc|lia].
  - replace (b ++ 13%Z :: pad ++ rest) with ((b ++ 13%Z :: pad) ++ rest)
      by (rewrite <- app_assoc; reflexivity).
    rewrite prun_app, prun_body_cr by auto. specialize (IH (S k)).
    rewrite prun_cr_init by exact Hr.
    destruct (prun LineInit (S k) rest) as [[o2 s2] k2]. cbn [fst snd] in *.
    destruct IH as [I1 I2]. cbn [render]. rewrite I1, I2. unfold lines_begun. cbn [length].
    split; [now rewrite <- !app_assoc|lia].
Qed.

End Log.

(** Every stream splits, in one way only. *)
Lemma text_prefix l : exists b r, l = b ++ r /\ text b /\
  (r = [] \/ exists c r', r = c :: r' /\ (c = 13 \/ c = 10)%Z).
Proof.
  induction l as [|c l (b & r & E & Hb & Hr)].
  - exists [], []. split; [reflexivity|]. split; [constructor|auto].
  - destruct (Z.eq_dec c 13) as [->|N1].
    { exists [], (13%Z :: l). split; [reflexivity|]. split; [constructor|]. right. eauto. }
    destruct (Z.eq_dec c 10) as [->|N2].
    { exists [], (10%Z :: l). split; [reflexivity|]. split; [constructor|]. right. eauto. }
    exists (c :: b), r. subst l. split; [reflexivity|]. split; [constructor; auto|exact Hr].
Qed.

Lemma pad_prefix l : exists pad r, l = pad ++ r /\ padding pad /\ starts_ok r.
Proof.
  induction l as [|c l (b & r & E & Hb & Hr)].
  - exists [], []. split; [reflexivity|]. split; [constructor|exact I].
  - destruct (Z.eq_dec c 13) as [->|N1].
    { exists (13%Z :: b), r. subst l. split; [reflexivity|]. split; [constructor; auto|exact Hr]. }
    destruct (Z.eq_dec c 0) as [->|N2].
    { exists (0%Z :: b), r. subst l. split; [reflexivity|]. split; [constructor; auto|exact Hr]. }
    exists [], (c :: l). split; [reflexivity|]. split; [constructor|]. cbn. auto.
Qed.

Lemma splits_ex s : exists ls last, splits s ls last.
Proof.
  remember (length s) as n eqn:En. revert s En.
  induction n as [n IH] using lt_wf_ind. intros s ->.
  destruct (text_prefix s) as (b & r & -> & Hb & Hr).
  destruct Hr as [-> | (c & r' & -> & Hc)].
  { rewrite app_nil_r. destruct b as [|x b].
    - exists [], None. constructor.
    - exists [], (Some (x :: b)). constructor; [exact Hb|discriminate]. }
  destruct (pad_prefix r') as (pad & r2 & -> & Hp & Hr2).
  destruct Hc as [-> | ->].
  - destruct r2 as [|d r3].
    { rewrite app_nil_r. exists [], (Some b). now constructor. }
    destruct (Z.eq_dec d 10) as [->|N].
    + destruct (pad_prefix r3) as (pad2 & r4 & -> & Hp2 & Hr4).
      destruct (IH (length r4)) with (s := r4) as (ls & last & H); [|reflexivity|].
      { repeat (rewrite app_length || cbn [length]). lia. }
      exists (b :: ls), last.
      apply (@sp_lf b (13%Z :: pad) pad2 r4 ls last Hb); auto. right. eauto.
    + destruct (IH (length (d :: r3))) with (s := d :: r3) as (ls & last & H); [|reflexivity|].
      { repeat (rewrite app_length || cbn [length]). lia. }
      exists (b :: ls), last. apply sp_bare; auto. cbn in Hr2 |- *. tauto.
  - destruct (IH (length r2)) with (s := r2) as (ls & last & H); [|reflexivity|].
    { repeat (rewrite app_length || cbn [length]). lia. }
    exists (b :: ls), last. apply (@sp_lf b [] pad r2 ls last Hb); auto.
Qed.

Lemma text_uniq b r b' r' :
  b ++ r = b' ++ r' -> text b -> text b' ->
  (r = [] \/ exists c x, r = c :: x /\ (c = 13 \/ c = 10)%Z) ->
  (r' = [] \/ exists c x, r' = c :: x /\ (c = 13 \/ c = 10)%Z) -> b = b' /\ r = r'.
Proof.
  revert b'. induction b as [|x b IH]; intros b' E Hb Hb' Hr Hr'.
  - destruct b' as [|y b']; [auto|]. cbn in E. subst r. inversion Hb' as [|? ? Hy ?]; subst.
    destruct Hr as [|(c & z & E & Hc)]; [discriminate|]. inversion E; subst. lia.
  - inversion Hb as [|? ? Hx Hb2]; subst. destruct b' as [|y b'].
    + cbn in E. subst r'. destruct Hr' as [|(c & z & E & Hc)]; [discriminate|]. inversion E; subst. lia.
    + inversion Hb'; subst. cbn in E. inversion E; subst.
      destruct (IH b') as [-> ->]; auto.
Qed.

Lemma pad_uniq b r b' r' :
  b ++ r = b' ++ r' -> padding b -> padding b' -> starts_ok r -> starts_ok r' -> b = b' /\ r = r'.
Proof.
  revert b'. induction b as [|x b IH]; intros b' E Hb Hb' Hr Hr'.
  - destruct b' as [|y b']; [auto|]. cbn in E. subst r. inversion Hb' as [|? ? Hy ?]; subst.
    cbn in Hr. lia.
  - inversion Hb as [|? ? Hx Hb2]; subst. destruct b' as [|y b'].
    + cbn in E. subst r'. cbn in Hr'. lia.
    + inversion Hb'; subst. cbn in E. inversion E; subst.
      destruct (IH b') as [-> ->]; auto.
Qed.

Lemma starts_text_ok l : starts_text l -> starts_ok l.
Proof. destruct l; cbn; tauto. Qed.

(** What follows the text of the first line. *)
Inductive tailof : list Z -> list (list Z) -> option (list Z) -> list Z -> Prop :=
| ta_none : forall b, tailof [] [] (match b with [] => None | _ => Some b end) b
| ta_cr : forall b pad, padding pad -> tailof (13%Z :: pad) [] (Some b) b
| ta_crlf : forall b p0 pad rest ls last, padding p0 -> padding pad -> starts_ok rest ->
    splits rest ls last -> tailof (13%Z :: p0 ++ 10%Z :: pad ++ rest) (b :: ls) last b
| ta_lf : forall b pad rest ls last, padding pad -> starts_ok rest ->
    splits rest ls last -> tailof (10%Z :: pad ++ rest) (b :: ls) last b
| ta_bare : forall b pad rest ls last, padding pad -> starts_text rest ->
    splits rest ls last -> tailof (13%Z :: pad ++ rest) (b :: ls) last b.

Lemma splits_tail s ls last : splits s ls last ->
  exists b r, s = b ++ r /\ text b /\ tailof r ls last b.
Proof.
  intros H. destruct H as [|b Hb N|b pad Hb Hp|b brk pad rest ls last Hb Hk Hp Hr H
                                      |b pad rest ls last Hb Hp Hr H].
  - exists [], []. split; [reflexivity|]. split; [constructor|apply (ta_none [])].
  - exists b, []. rewrite app_nil_r. split; [reflexivity|]. split; [exact Hb|].
    pose proof (ta_none b) as T. destruct b; [congruence|exact T].
  - exists b, (13%Z :: pad). split; [reflexivity|]. split; [exact Hb|now constructor].
  - exists b, (brk ++ 10%Z :: pad ++ rest). split; [reflexivity|]. split; [exact Hb|].
    destruct Hk as [-> | (p0 & -> & H0)]; cbn [app]; now constructor.
  - exists b, (13%Z :: pad ++ rest). split; [reflexivity|]. split; [exact Hb|now apply ta_bare].
Qed.

Lemma tailof_head r ls last b : tailof r ls last b ->
  r = [] \/ exists c x, r = c :: x /\ (c = 13 \/ c = 10)%Z.
Proof. intros H; destruct H; [left; reflexivity|right; eauto..]. Qed.

Lemma splits_unique s ls last ls' last' :
  splits s ls last -> splits s ls' last' -> ls = ls' /\ last = last'.
Proof.
  remember (length s) as n eqn:En. revert s En ls last ls' last'.
  induction n as [n IH] using lt_wf_ind. intros s -> ls last ls' last' H1 H2.
  destruct (splits_tail H1) as (b & r & E & Hb & T1).
  destruct (splits_tail H2) as (b' & r' & E' & Hb' & T2).
  assert (X : b = b' /\ r = r').
  { apply text_uniq; auto; [congruence|eapply tailof_head; eassumption|eapply tailof_head; eassumption]. }
  destruct X as [<- <-]. rewrite E in IH. clear E E' H1 H2 Hb' s.
  assert (IH' : forall x l1 a1 l2 a2, length x < length (b ++ r) ->
            splits x l1 a1 -> splits x l2 a2 -> b :: l1 = b :: l2 /\ a1 = a2).
  { intros x l1 a1 l2 a2 Hl A B. destruct (IH _ Hl x eq_refl _ _ _ _ A B) as [-> ->]. auto. }
  clear IH.
  assert (N10 : forall l : list Z, starts_ok (10%Z :: l)) by (cbn; lia).
  assert (NIL : starts_ok []) by exact I.
  Ltac padeq E := apply pad_uniq in E; [destruct E as [? E]; subst|auto using starts_text_ok..].
  Ltac lenok := repeat (rewrite app_length || cbn [length]); lia.
  remember r as r2 eqn:Er in T2. revert Er.
  inversion T1 as [b2 E1 E2 E3 E4|b2 pad P E1 E2 E3 E4|b2 p0 pad rest l la P0 P S1 H E1 E2 E3 E4
                    |b2 pad rest l la P S1 H E1 E2 E3 E4|b2 pad rest l la P S1 H E1 E2 E3 E4]; subst; clear T1;
    inversion T2 as [b2 E1 E2 E3 E4|b2 pad2 Q E1 E2 E3 E4|b2 q0 pad2 rest2 l2 la2 Q0 Q S2 H' E1 E2 E3 E4
                    |b2 pad2 rest2 l2 la2 Q S2 H' E1 E2 E3 E4|b2 pad2 rest2 l2 la2 Q S2 H' E1 E2 E3 E4]; subst; clear T2;
    intros Er; auto; try discriminate Er; injection Er as E1.
  - exfalso. rewrite <- (app_nil_r pad) in E1. padeq E1. discriminate.
  - exfalso. rewrite <- (app_nil_r pad) in E1. padeq E1. exact S2.
  - exfalso. rewrite <- (app_nil_r pad2) in E1. padeq E1. discriminate.
  - padeq E1. injection E1 as E1. padeq E1. apply (IH' rest); auto. lenok.
  - exfalso. padeq E1. cbn in S2. lia.
  - padeq E1. apply (IH' rest); auto. lenok.
  - exfalso. rewrite <- (app_nil_r pad2) in E1. padeq E1. exact S1.
  - exfalso. padeq E1. cbn in S1. lia.
  - padeq E1. apply (IH' rest); auto. lenok.
Qed.

Section Run.
Variable SZ : nat.
Variable dbg : bool.
Variable clock : nat -> list Z.
Variable p : logopts.
Hypothesis HC : clock_fits dbg clock.
Hypothesis HM : MINBUF <= SZ - 1.
Hypothesis HG : got_processing p = true.

Lemma run_data junk chunks : (forall i, length (junk i) = SZ - 1) -> Forall bytes_ok chunks -> forall rest ls k j,
  (lo_timestamp p = true -> j = k) ->
  exists ms j', concat ms = fst (fst (prun clock p ls k (concat chunks))) /\ msgs_ok SZ ms /\
    (lo_timestamp p = true -> j' = snd (prun clock p ls k (concat chunks))) /\
    log_run SZ dbg clock p junk ls j (map LData chunks ++ rest) =
    (do r2 <- log_run SZ dbg clock p junk (snd (fst (prun clock p ls k (concat chunks)))) j' rest;
     let '(ms2, ls2, k2) := r2 in Ok (ms ++ ms2, ls2, k2)).
Proof.
  intros HJ Hb. induction Hb as [|d chunks Hd Hb IH]; intros rest ls k j Hk.
  - exists [], j. split; [reflexivity|]. split; [constructor|]. split; [exact Hk|]. cbn.
    destruct (log_run SZ dbg clock p junk ls j rest) as [[[? ?] ?]|]; reflexivity.
  - cbn [map app log_run concat].
    destruct (@format_ok SZ dbg clock p d (junk (length (LData d :: map LData chunks ++ rest))) ls k j)
      as (ms & j1 & A & B & M & K); auto.
    rewrite A. cbn [bind]. rewrite prun_app.
    destruct (prun clock p ls k d) as [[o1 s1] k1]. cbn [fst snd] in *.
    destruct (IH rest s1 k1 j1 K) as (ms2 & j2 & A2 & M2 & K2 & B2).
    destruct (prun clock p s1 k1 (concat chunks)) as [[o2 s2] k2]. cbn [fst snd] in *.
    exists (ms ++ ms2), j2. split; [rewrite concat_app; congruence|].
    split; [apply Forall_app; auto|]. split; [exact K2|].
    cbn [app] in B2. rewrite B2.
    destruct (log_run SZ dbg clock p junk s2 j2 rest) as [[[ms3 s3] k3]|]; cbn [bind]; [|reflexivity].
    now rewrite app_assoc.
Qed.

(** Split a history at its first message. *)
Lemma lops_cases (xs : list lop) :
  exists chunks, xs = map LData chunks \/ exists m rest, xs = map LData chunks ++ LInfo m :: rest.
Proof.
  induction xs as [|x xs (chunks & H)].
  - exists []. now left.
  - destruct x as [d|m].
    + exists (d :: chunks). destruct H as [-> | (m & rest & ->)]; [now left|right; exists m, rest; reflexivity].
    + exists []. right. exists m, xs. reflexivity.
Qed.

Lemma show_eq : show p = show_of p. Proof. reflexivity. Qed.
Lemma stamp_eq : ts clock p = stamp_of p clock. Proof. reflexivity. Qed.

Lemma run_log_of junk xs : (forall i, length (junk i) = SZ - 1) -> bytes_ok (flat_map lop_bytes xs) -> forall k j,
  (lo_timestamp p = true -> j = k) ->
  exists ms s j', log_run SZ dbg clock p junk LineInit j xs = Ok (ms, s, j') /\
    log_of (show_of p) (stamp_of p clock) k xs (concat ms).
Proof.
  intros HJ. remember (length xs) as n eqn:En. revert xs En.
  induction n as [n IH] using lt_wf_ind. intros xs -> Hb k j Hk.
  destruct (lops_cases xs) as (chunks & H).
  assert (Hch : Forall bytes_ok chunks).
  { assert (X : forall r, bytes_ok (flat_map lop_bytes (map LData chunks ++ r)) -> Forall bytes_ok chunks).
    { clear. intros r. induction chunks as [|d chunks IH]; cbn; [constructor|].
      intros H. apply Forall_app in H. destruct H. constructor; auto. }
    destruct H as [-> | (m & rest & ->)]; [|eapply X; exact Hb].
    apply (X []). now rewrite app_nil_r. }
  destruct (splits_ex (concat chunks)) as (ls & last & HS).
  destruct (prun_splits clock p k HS) as [P1 P2].
  destruct H as [-> | (m & rest & ->)].
  - destruct (run_data junk HJ Hch [] LineInit Hk) as (ms & j' & A & _ & K & B).
    rewrite app_nil_r in B. cbn [log_run bind] in B. rewrite app_nil_r in B.
    do 3 eexists. split; [exact B|]. rewrite A, P1. constructor. exact HS.
  - destruct (run_data junk HJ Hch (LInfo m :: rest) LineInit Hk) as (ms & j' & A & _ & K & B).
    cbn [log_run] in B.
    destruct (IH (length rest)) with (xs := rest) (k := k + lines_begun ls last) (j := j')
      as (ms2 & s2 & j2 & C & D).
    + rewrite app_length. cbn [length]. lia.
    + reflexivity.
    + rewrite flat_map_app in Hb. apply Forall_app in Hb. apply Hb.
    + intros E. rewrite <- P2. auto.
    + rewrite C in B. cbn [bind] in B. do 3 eexists. split; [exact B|].
      rewrite concat_app. cbn [concat]. rewrite A, P1. constructor; auto.
Qed.

Lemma run_chunks junk1 junk2 c1 c2 ls k :
  (forall i, length (junk1 i) = SZ - 1) -> (forall i, length (junk2 i) = SZ - 1) ->
  Forall bytes_ok c1 -> Forall bytes_ok c2 -> concat c1 = concat c2 ->
  exists ms1 ms2 s j1 j2, log_run SZ dbg clock p junk1 ls k (map LData c1) = Ok (ms1, s, j1) /\
    log_run SZ dbg clock p junk2 ls k (map LData c2) = Ok (ms2, s, j2) /\ concat ms1 = concat ms2 /\
    (lo_timestamp p = true -> j1 = j2).
Proof.
  intros J1 J2 B1 B2 E.
  destruct (run_data junk1 J1 B1 [] ls (k:=k) (j:=k) (fun _ => eq_refl)) as (ms1 & j1 & A1 & _ & K1 & R1).
  destruct (run_data junk2 J2 B2 [] ls (k:=k) (j:=k) (fun _ => eq_refl)) as (ms2 & j2 & A2 & _ & K2 & R2).
  rewrite app_nil_r in R1, R2. cbn [log_run bind] in R1, R2. rewrite app_nil_r in R1, R2.
  rewrite E in *. exists ms1, ms2. do 3 eexists. split; [exact R1|]. split; [exact R2|]. split; [congruence|].
  intros T. rewrite K1, K2 by exact T. reflexivity.
Qed.

End Run.

(** ** Into the circular buffer *)

Lemma write_msgs_abs SZ ms : 1 < SZ -> msgs_ok SZ ms -> forall o, Inv SZ o -> o_eof o = false -> is_client o = false ->
  exists n o', write_msgs SZ o ms = Ok (n, o') /\ Inv SZ o' /\ o_eof o' = false /\ o_open o' = o_open o /\
    is_client o' = false /\ pending SZ o' = lastn (SZ - 1) (pending SZ o ++ concat ms).
Proof.
  intros HS Hm. induction Hm as [|m ms Hl Hm IH]; intros o HI He Hc.
  - exists 0, o. cbn [write_msgs concat]. rewrite app_nil_r. split; [reflexivity|].
    split; [exact HI|]. split; [exact He|]. split; [reflexivity|]. split; [exact Hc|].
    rewrite lastn_all; [reflexivity|]. rewrite pending_length by exact HI. now apply nbb_lt.
  - cbn [write_msgs]. destruct (write_abs m false HS HI) as (n & o1 & A & HI1 & B).
    rewrite A. cbn [bind fst snd]. cbn [qstep abs] in B.
    assert (Acc : accepts (abs SZ o) false = true) by (unfold accepts; cbn; now rewrite He).
    rewrite Acc in B. cbn [fst] in B.
    unfold abs in B. injection B as B1 B2 B3 B4 B5.
    destruct (IH o1 HI1) as (n2 & o2 & A2 & HI2 & He2 & Ho2 & Hc2 & P2); [congruence|congruence|].
    rewrite A2. cbn [bind fst snd]. exists (n + n2), o2. split; [reflexivity|]. split; [exact HI2|].
    split; [exact He2|]. split; [congruence|]. split; [exact Hc2|].
    rewrite P2, B1. unfold enqueue. rewrite firstn_all2 by exact Hl.
    cbn [concat]. rewrite app_assoc. apply lastn_lastn_app.
Qed.

Lemma flush_all SZ o j : 1 < SZ -> Inv SZ o -> o_open o = true -> SZ <= j ->
  exists dead o', write_to_obj SZ o [WAccept j] = Ok (pending SZ o, dead, o').
Proof.
  intros HS HI Ho Hj. destruct (flush_abs [WAccept j] HS HI) as (dead & o' & A & _).
  exists dead, o'. rewrite A. cbn [qstep abs snd]. rewrite Ho. cbn [taken].
  pose proof (nbb_lt HI) as N. pose proof (pending_length HI) as L.
  rewrite firstn_all2; [reflexivity|]. lia.
Qed.



Lemma shown_printable c : byte_ok c -> Forall printable (shown c).
Proof.
  intros H. unfold byte_ok in H. unfold shown, printable.
  destruct (Z.leb_spec 128 c).
  - destruct (Z.ltb_spec (c - 128) 32); [repeat constructor; lia|].
    destruct (Z.eqb_spec (c - 128) 127); repeat constructor; lia.
  - destruct (Z.ltb_spec c 32); [repeat constructor; lia|].
    destruct (Z.eqb_spec c 127); repeat constructor; lia.
Qed.

Lemma splits_bytes s ls last : splits s ls last -> bytes_ok s ->
  Forall bytes_ok ls /\ match last with Some b => bytes_ok b | None => True end.
Proof.
  unfold bytes_ok. intros H. induction H as [|b Hb N|b pad Hb Hp|b brk pad rest ls last Hb Hk Hp Hr H IH
                                      |b pad rest ls last Hb Hp Hr H IH]; intros B; auto.
  - apply Forall_app in B. split; [constructor|tauto].
  - apply Forall_app in B. destruct B as [B1 B]. apply Forall_app in B. destruct B as [_ B].
    inversion B; subst. match goal with X : Forall byte_ok (pad ++ rest) |- _ => apply Forall_app in X; destruct X as [_ X]; apply IH in X; destruct X end.
    split; [constructor; auto|auto].
  - apply Forall_app in B. destruct B as [B1 B]. inversion B; subst.
    match goal with X : Forall byte_ok (pad ++ rest) |- _ => apply Forall_app in X; destruct X as [_ X]; apply IH in X; destruct X end.
    split; [constructor; auto|auto].
Qed.

Lemma flat_shown b : bytes_ok b -> Forall text_or_eol (flat_map shown b).
Proof.
  intros H. induction H as [|c b Hc H IH]; [constructor|]. cbn. apply Forall_app. split; [|exact IH].
  eapply Forall_impl; [|apply shown_printable, Hc]. intros x Hx; now left.
Qed.

Lemma render_text st ls last : (forall k, Forall text_or_eol (st k)) ->
  Forall bytes_ok ls -> match last with Some b => bytes_ok b | None => True end ->
  forall k, Forall text_or_eol (render shown st k ls last).
Proof.
  intros Hst H Hl. induction H as [|b ls Hb H IH]; intros k; cbn [render].
  - destruct last as [b|]; [|constructor]. apply Forall_app. split; [apply Hst|]. now apply flat_shown.
  - apply Forall_app. split; [apply Hst|]. apply Forall_app. split; [now apply flat_shown|].
    apply Forall_app. split; [|apply IH]. unfold CRLF.
    apply Forall_cons; [right; left; reflexivity|]. apply Forall_cons; [right; right; reflexivity|constructor].
Qed.

Lemma log_of_text st k xs out : log_of shown st k xs out ->
  (forall k, Forall text_or_eol (st k)) -> bytes_ok (flat_map lop_bytes xs) ->
  (forall m, In (LInfo m) xs -> Forall text_or_eol m) -> Forall text_or_eol out.
Proof.
  assert (X : forall chunks, flat_map lop_bytes (map LData chunks) = concat chunks).
  { induction chunks as [|d chunks IH]; [reflexivity|]. cbn. now rewrite IH. }
  intros H Hst. induction H as [k chunks ls last HS|k chunks ls last m rest out HS H IH]; intros Hb Hm.
  - rewrite X in Hb. destruct (splits_bytes HS Hb). now apply render_text.
  - rewrite flat_map_app, X in Hb. apply Forall_app in Hb. destruct Hb as [B1 B2].
    destruct (splits_bytes HS B1). apply Forall_app. split; [now apply render_text|].
    apply Forall_app. split; [apply Hm; apply in_or_app; right; now left|].
    apply IH; [exact B2|]. intros m' Hi. apply Hm. apply in_or_app. right. now right.
Qed.

(** ** The object *)
Lemma write_kind SZ o src i n o' : write_obj_data SZ o src i = Ok (n, o') -> is_client o = false ->
  o_kind o' = (match src with [] => o_kind o | _ =>
     if o_eof o then o_kind o else match o_kind o with KLogfile _ => if i then KLogfile LineInit else o_kind o | _ => o_kind o end end).
Proof.
  intros H HC. unfold write_obj_data in H. destruct src as [|b src]; [now injection H as _ <-|].
  destruct (o_eof o); [now injection H as _ <-|]. rewrite HC, andb_false_r in H. cbn [andb] in H.
  apply bind_ok in H. destruct H as (u & _ & H).
  apply bind_ok in H. destruct H as (c1 & _ & H).
  apply bind_ok in H. destruct H as (b1 & _ & H).
  apply bind_ok in H. destruct H as ([b2 i2] & _ & H).
  apply bind_ok in H. destruct H as (v & _ & H). injection H as _ <-.
  destruct (negb (is_suspended o)); cbn; reflexivity.
Qed.

Lemma write_msgs_kind SZ : forall ms o n o', write_msgs SZ o ms = Ok (n, o') -> is_client o = false -> o_kind o' = o_kind o.
Proof.
  induction ms as [|m ms IH]; intros o n o' H HC; cbn [write_msgs] in H; [now injection H as _ <-|].
  apply bind_ok in H. destruct H as ([n1 o1] & A & H). apply bind_ok in H. destruct H as ([n2 o2] & B & H).
  injection H as _ <-. cbn [snd] in *. pose proof (write_kind _ _ _ _ A HC) as K.
  assert (K1 : o_kind o1 = o_kind o).
  { rewrite K. destruct m; [reflexivity|]. destruct (o_eof o); [reflexivity|]. destruct (o_kind o); reflexivity. }
  rewrite (IH _ _ _ B); [exact K1|]. unfold is_client. now rewrite K1.
Qed.

Lemma concat_msgs SZ ms : length (concat ms) <= SZ - 1 -> msgs_ok SZ ms.
Proof.
  induction ms as [|m ms IH]; cbn; intros H; [constructor|]. rewrite app_length in H. constructor; [lia|].
  apply IH. lia.
Qed.

Lemma log_run_one SZ dbg clock p junk x xs ls k :
  log_run SZ dbg clock p junk ls k (x :: xs) =
  (do r <- log_run SZ dbg clock p (fun _ => junk (S (length xs))) ls k [x];
   let '(ms, ls1, k1) := r in
   do r2 <- log_run SZ dbg clock p junk ls1 k1 xs;
   let '(ms2, ls2, k2) := r2 in Ok (ms ++ ms2, ls2, k2)).
Proof.
  destruct x as [d|m]; cbn [log_run length].
  - destruct (log_format SZ dbg clock p (junk (S (length xs))) d ls k) as [[[ms l1] k1]|]; [|reflexivity].
    cbn [bind]. now rewrite app_nil_r.
  - reflexivity.
Qed.

Lemma hist_ok SZ dbg clock p junk : 1 < SZ -> forall es o k ls, Inv SZ o -> o_kind o = KLogfile ls -> o_eof o = false -> o_open o = true ->
  (forall m, In (VOp (LInfo m)) es -> m <> []) ->
  roomy SZ dbg clock p junk (pending SZ o) ls k es ->
  exists o' sent ms ls' k', log_hist SZ dbg clock p junk o k es = Ok (o', k', sent) /\
    log_run SZ dbg clock p junk ls k (lops es) = Ok (ms, ls', k') /\
    Inv SZ o' /\ o_kind o' = KLogfile ls' /\ o_open o' = true /\
    sent ++ pending SZ o' = pending SZ o ++ concat ms.
Proof.
  intros HSZ. induction es as [|e es IH]; intros o k ls HI Hk He Ho Hm HR.
  { exists o, [], [], ls, k. cbn. rewrite app_nil_r. auto 9. }
  assert (HC : is_client o = false) by (unfold is_client; now rewrite Hk).
  assert (Hm' : forall m, In (VOp (LInfo m)) es -> m <> []) by (intros; apply Hm; now right).
  destruct e as [x|rs].
  - cbn [roomy] in HR. replace (lops (VOp x :: es)) with (x :: lops es) in * by reflexivity. cbn [length] in HR.
    rewrite log_run_one.
    destruct (log_run SZ dbg clock p (fun _ => junk (S (length (lops es)))) ls k [x]) as [[[ms1 ls1] k1]|] eqn:X; [|contradiction].
    cbn [bind]. destruct HR as [L HR].
    assert (Y : exists o1, (forall r, (do q <- log_hist SZ dbg clock p junk o1 k1 es; r q) =
                                      (do q <- log_hist SZ dbg clock p junk o k (VOp x :: es); r q : res (obj * nat * list Z))) /\
              Inv SZ o1 /\ o_kind o1 = KLogfile ls1 /\ o_eof o1 = false /\ o_open o1 = true /\
              pending SZ o1 = pending SZ o ++ concat ms1).
    { destruct x as [d|m]; cbn [log_run bind length] in X.
      - destruct (log_format SZ dbg clock p (junk (S (length (lops es)))) d ls k) as [[[ms0 l0] k0]|] eqn:F; [|discriminate].
        cbn [bind] in X. injection X as <- <- <-. rewrite app_nil_r in *.
        destruct (@write_msgs_abs SZ ms0 HSZ) with (o := o) as (n & o1 & W & I1 & E1 & O1 & C1 & P1); auto.
        { apply concat_msgs. lia. }
        exists (set_line l0 o1). split.
        + intros r. cbn [log_hist]. unfold write_log_data, line_state. rewrite Hk. cbn [bind].
          replace (lops (VOp (LData d) :: es)) with (LData d :: lops es) by reflexivity. cbn [length]. rewrite F. cbn [bind]. rewrite W. reflexivity.
        + split; [exact I1|]. split; [reflexivity|]. split; [exact E1|]. split; [cbn; congruence|].
          change (pending SZ (set_line l0 o1)) with (pending SZ o1). rewrite P1. apply lastn_all. rewrite app_length. lia.
      - injection X as <- <- <-. cbn [concat] in *. rewrite app_nil_r in *.
        destruct (write_abs m true HSZ HI) as (n & o1 & W & I1 & AB).
        exists o1. split; [intros r; cbn [log_hist]; rewrite W; reflexivity|].
        cbn [qstep abs] in AB. unfold accepts, abs in AB. cbn [q_eof q_client q_quiet] in AB. rewrite He, HC in AB.
        cbn in AB. injection AB as P1 E1 C1 _ O1.
        split; [exact I1|]. split; [|split; [congruence|split; [congruence|]]].
        + rewrite (write_kind _ _ _ _ W HC), He, Hk. destruct m; [|reflexivity]. exfalso. apply (Hm []); [now left|reflexivity].
        + rewrite P1. unfold enqueue. rewrite firstn_all2 by lia. apply lastn_all. rewrite app_length. lia. }
    destruct Y as (o1 & Y & I1 & K1 & E1 & O1 & P1).
    destruct (IH o1 k1 ls1 I1 K1 E1 O1 Hm') as (o' & sent & ms & ls' & k' & A & B & C & D & F & Q).
    { rewrite P1. exact HR. }
    rewrite B. cbn [bind]. exists o', sent, (ms1 ++ ms), ls', k'.
    split. { specialize (Y (fun q => Ok q)). rewrite A in Y. cbn [bind] in Y. rewrite Y. now destruct (log_hist _ _ _ _ _ _ _ _). }
    split; [reflexivity|]. split; [exact C|]. split; [exact D|]. split; [exact F|].
    rewrite Q, P1, concat_app, app_assoc. reflexivity.
  - replace (lops (VFlush rs :: es)) with (lops es) in * by reflexivity. cbn [roomy log_hist] in *.
    destruct (flush_abs rs HSZ HI) as (dead & o1 & A & I1 & AB & _ & _ & _ & K1 & _).
    rewrite A. cbn [bind]. cbn [qstep abs] in *. rewrite Ho in *. cbn [fst snd] in *.
    unfold abs in AB. injection AB as P1 E1 _ _ O1.
    destruct (IH o1 k ls I1) as (o' & sent & ms & ls' & k' & A2 & B & C & D & F & Q); try congruence; auto.
    rewrite A2. cbn [bind]. eexists o', _, ms, ls', k'. split; [reflexivity|].
    split; [exact B|]. split; [exact C|]. split; [exact D|]. split; [exact F|].
    rewrite <- app_assoc, Q, P1, app_assoc. now rewrite firstn_skipn.
Qed.
