From Coq Require Import String.
From Verif Require Import Base BaseProof Mem Chars Fmt LexModel LexProof StrModel EnvModel CliModel CliSpec.
From Coq Require Import ZifyNat.
Local Open Scope Z_scope.
Local Open Scope list_scope.

(** ** Files *)
Lemma line_of_short n l rest : ~ In LF l -> (length l + 1 <= n)%nat -> line_of n (l ++ LF :: rest) = (l ++ [LF], rest).
Proof.
  revert n. induction l as [|c l IH]; intros n NI LE; destruct n as [|n]; cbn [length] in LE; try lia; cbn [app line_of].
  - rewrite Z.eqb_refl. reflexivity.
  - destruct (Z.eqb_spec c LF) as [->|_]; [destruct NI; left; reflexivity|]. rewrite IH; [reflexivity|intros H; apply NI; right; exact H|lia].
Qed.
Lemma line_of_last n l : ~ In LF l -> (length l <= n)%nat -> line_of n l = (l, []).
Proof.
  revert n. induction l as [|c l IH]; intros n NI LE; destruct n as [|n]; cbn [length] in LE; try lia; cbn [line_of]; try reflexivity.
  destruct (Z.eqb_spec c LF) as [->|_]; [destruct NI; left; reflexivity|]. rewrite IH; [reflexivity|intros H; apply NI; right; exact H|lia].
Qed.
Lemma find_nul_at t : forall k buf i post, buf = firstn i buf ++ t ++ 0 :: post -> (i <= length buf)%nat -> Forall (fun c => c <> 0) t -> (length t < k)%nat -> find_nul k buf i = Ok (i + length t)%nat.
Proof.
  induction t as [|c t IH]; intros k buf i post E LE F K; destruct k as [|k]; cbn [length] in K; try lia; cbn [find_nul].
  - rewrite E at 1. rewrite (get_eq (firstn i buf) 0 post) by (rewrite firstn_length; lia). cbn [bind]. cbn [length]. rewrite Nat.add_0_r. reflexivity.
  - rewrite E at 1. cbn [app]. rewrite (get_eq (firstn i buf) c (t ++ 0 :: post)) by (rewrite firstn_length; lia). cbn [bind].
    inversion F as [|? ? F1 F2]; subst. change NUL with 0. destruct (Z.eqb_spec c 0); [contradiction|].
    assert (LB : (S i <= length buf)%nat) by (rewrite E, app_length, firstn_length; cbn [app length]; lia).
    rewrite (IH k buf (S i) post).
    + cbn [length]. f_equal. lia.
    + assert (X : firstn (S i) buf = firstn i buf ++ [c]).
      { rewrite E. rewrite firstn_app, firstn_firstn. rewrite firstn_length. replace (Nat.min (S i) i) with i by lia. replace (S i - Nat.min i (length buf))%nat with 1%nat by lia.
        cbn [app firstn]. f_equal. rewrite firstn_app, firstn_firstn, firstn_length. replace (Nat.min i i) with i by lia. replace (i - Nat.min i (length buf))%nat with 0%nat by lia. cbn [firstn]. rewrite app_nil_r. reflexivity. }
      rewrite X, <- app_assoc. exact E.
    + exact LB.
    + exact F2.
    + lia.
Qed.
Lemma ctype_ok (iso : bool) c : 1 <= c < (if iso then 128 else 256) -> ctype iso isspace c = Ok (isspace c).
Proof.
  intros H. unfold ctype, schar. destruct (Z.ltb_spec c 128); [destruct (Z.leb_spec 0 c); [reflexivity|lia]|].
  destruct (Z.leb_spec 0 (c - 256)); [destruct iso; lia|]. destruct iso; [lia|]. unfold isspace. f_equal. symmetry. 
  destruct (Z.leb_spec 9 c), (Z.leb_spec c 13), (Z.eqb_spec c 32); cbn; try reflexivity; lia.
Qed.
(** blanks at the end are cut off *)
Lemma trim_ok (iso : bool) b : forall pre post, blanks b -> text_ok iso b ->
  trim_end iso (pre ++ b ++ post) (length pre + length b) = trim_end iso (pre ++ repeat 0 (length b) ++ post) (length pre).
Proof.
  induction b as [|c b IH] using rev_ind; intros pre post B T; [cbn [length repeat app]; rewrite Nat.add_0_r; reflexivity|].
  apply Forall_app in B. destruct B as [B1 B2]. apply Forall_app in T. destruct T as [T1 T2]. inversion B2 as [|? ? B3 _]; subst. inversion T2 as [|? ? T3 _]; subst.
  rewrite app_length. cbn [length]. replace (length pre + (length b + 1))%nat with (S (length pre + length b)) by lia. cbn [trim_end].
  replace (pre ++ (b ++ [c]) ++ post) with ((pre ++ b) ++ c :: post) by (rewrite <- !app_assoc; reflexivity).
  rewrite get_eq by (rewrite app_length; reflexivity). cbn [bind]. rewrite ctype_ok by exact T3. cbn [bind]. rewrite B3.
  rewrite put_eq by (rewrite app_length; reflexivity). cbn [bind]. rewrite <- app_assoc. rewrite IH by auto.
  replace (repeat 0 (length b + 1)) with (repeat 0 (length b) ++ [0]) by (rewrite repeat_app; reflexivity). rewrite <- app_assoc. reflexivity.
Qed.
Lemma trim_stop (iso : bool) pre c post : 1 <= c < (if iso then 128 else 256) -> isspace c = false -> trim_end iso (pre ++ c :: post) (length pre + 1) = Ok (pre ++ c :: post, (length pre + 1)%nat).
Proof.
  intros C I. replace (length pre + 1)%nat with (S (length pre)) by lia. cbn [trim_end]. rewrite get_eq by reflexivity. cbn [bind]. rewrite ctype_ok by exact C. cbn [bind]. rewrite I. reflexivity.
Qed.
(** blanks at the start are skipped *)
Lemma skip_ok (iso : bool) a : forall k pre c post n, blanks a -> text_ok iso a -> 1 <= c < (if iso then 128 else 256) -> isspace c = false ->
  (length pre + length a + 1 <= n)%nat -> (length a < k)%nat -> skip_start iso k (pre ++ a ++ c :: post) n (length pre) = Ok (length pre + length a)%nat.
Proof.
  induction a as [|x a IH]; intros k pre c post n B T C I N K; destruct k as [|k]; cbn [length] in *; try lia; cbn [skip_start app].
  - destruct (Nat.ltb_spec (length pre + 1) n).
    + rewrite get_eq by reflexivity. cbn [bind]. rewrite ctype_ok by exact C. cbn [bind]. rewrite I. rewrite Nat.add_0_r. reflexivity.
    + rewrite Nat.add_0_r. reflexivity.
  - inversion B as [|? ? B1 B2]; subst. inversion T as [|? ? T1 T2]; subst. destruct (Nat.ltb_spec (length pre + 1) n); [|lia].
    rewrite get_eq by reflexivity. cbn [bind]. rewrite ctype_ok by exact T1. cbn [bind]. rewrite B1.
    assert (X := IH k (pre ++ [x]) c post n B2 T2 C I). rewrite app_length in X. cbn [length] in X. rewrite <- app_assoc in X. cbn [app] in X.
    replace (S (length pre)) with (length pre + 1)%nat by lia. rewrite X by lia. f_equal. lia.
Qed.
Lemma split_body (body : list Z) : body = [] \/ exists t c, body = t ++ [c].
Proof. destruct body as [|c t] using rev_ind; [auto|right; eauto]. Qed.
Lemma text_nz iso s : text_ok iso s -> Forall (fun c => c <> 0) s.
Proof. apply Forall_impl. intros c H. lia. Qed.

(** one line that has been read: from the buffer to the name *)
Definition pick (iso : bool) (buf : list Z) : res (list Z * option (list Z)) :=
  do e <- find_nul (S (length buf)) buf 0;
  do t <- trim_end iso buf e;
  let '(buf, n) := t in
  do p <- skip_start iso (S (length buf)) buf n 0;
  do c <- get buf p;
  if (c =? HASH) || (c =? NUL) then Ok (buf, None)
  else
    do z <- find_nul (S (length buf)) buf p;
    do s <- slice buf p (z - p);
    Ok (buf, Some s).
Lemma read_loop_pick iso k buf file cs : read_loop iso (S k) buf file cs =
  do r <- fgets buf file;
  match r with
  | None => Ok cs
  | Some (buf, rest) => do x <- pick iso buf; read_loop iso k (fst x) rest (match snd x with Some s => cs ++ [s] | None => cs end)
  end.
Proof.
  cbn [read_loop]. destruct (fgets buf file) as [[[b rest]|]|]; [|reflexivity|reflexivity]. cbn [bind]. unfold pick.
  destruct (find_nul _ _ _); [|reflexivity]. cbn [bind]. destruct (trim_end _ _ _) as [[b1 n]|]; [|reflexivity]. cbn [bind].
  destruct (skip_start _ _ _ _ _); [|reflexivity]. cbn [bind]. destruct (get _ _) as [c|]; [|reflexivity]. cbn [bind].
  destruct (_ || _); [reflexivity|]. destruct (find_nul _ _ _); [|reflexivity]. cbn [bind]. destruct (slice _ _ _); reflexivity.
Qed.
Lemma pick_ok iso line body post : stripped line body -> text_ok iso line ->
  exists buf', pick iso (line ++ 0 :: post) = Ok (buf', match body with [] => None | c :: _ => if c =? HASH then None else Some body end) /\ length buf' = length (line ++ 0 :: post).
Proof.
  intros (a & b & -> & BA & BB & FST & LST) T. unfold pick.
  rewrite (find_nul_at (a ++ body ++ b) _ _ 0 post); [|reflexivity|lia|eapply text_nz; eauto|rewrite (app_length (a ++ body ++ b) (0 :: post)); cbn [length]; lia]. cbn [bind]. rewrite Nat.add_0_l.
  apply Forall_app in T. destruct T as [TA T]. apply Forall_app in T. destruct T as [TB TC].
  replace ((a ++ body ++ b) ++ 0 :: post) with ((a ++ body) ++ b ++ 0 :: post) by (rewrite <- !app_assoc; reflexivity).
  replace (length (a ++ body ++ b)) with (length (a ++ body) + length b)%nat by (rewrite !app_length; lia). rewrite trim_ok by auto.
  assert (ZP : exists p2, repeat 0 (length b) ++ 0 :: post = 0 :: p2 /\ length (0 :: p2) = length (b ++ 0 :: post)).
  { exists (match length b with O => post | S k => repeat 0 k ++ 0 :: post end). destruct b as [|x b]; [split; reflexivity|]. cbn [length repeat app]. split; [reflexivity|]. rewrite !app_length, repeat_length. reflexivity. }
  destruct ZP as (p2 & ZP & ZL). rewrite ZP. destruct (split_body body) as [->|(t & c & ->)].
  - rewrite app_nil_r. replace (a ++ 0 :: p2) with ([] ++ a ++ 0 :: p2) by reflexivity. replace (length a) with (length (@nil Z) + length a)%nat by reflexivity. rewrite trim_ok by auto. cbn [app length trim_end bind].
    destruct (Nat.ltb_spec (0 + 1) 0); [lia|]. cbn [skip_start]. destruct (Nat.ltb_spec (0 + 1) 0); [lia|]. cbn [bind].
    assert (G : get (repeat 0 (length a) ++ 0 :: p2) 0 = Ok 0) by (destruct (length a); reflexivity). rewrite G. cbn [bind].
    replace ((0 =? HASH) || (0 =? NUL)) with true by reflexivity. eexists. split; [reflexivity|]. 
    rewrite app_length, repeat_length, ZL, !app_length. reflexivity.
  - assert (IC : isspace c = false) by (eapply LST; reflexivity). apply Forall_app in TB. destruct TB as [TT TCC]. inversion TCC as [|? ? CC _]; subst.
    replace ((a ++ t ++ [c]) ++ 0 :: p2) with ((a ++ t) ++ c :: 0 :: p2) by (rewrite <- !app_assoc; reflexivity).
    replace (length (a ++ t ++ [c])) with (length (a ++ t) + 1)%nat by (rewrite !app_length; cbn [length]; lia). rewrite trim_stop by auto. cbn [bind].
    assert (HB : exists d u, t ++ [c] = d :: u /\ isspace d = false /\ 1 <= d < (if iso then 128 else 256)).
    { destruct t as [|d t]; [exists c, []; auto|]. exists d, (t ++ [c]). split; [reflexivity|]. split; [apply (FST d (t ++ [c])); reflexivity|]. inversion TT; subst; assumption. }
    destruct HB as (d & u & HB & ID & CD).
    assert (AP : (a ++ t) ++ c :: 0 :: p2 = a ++ d :: (u ++ 0 :: p2)).
    { rewrite <- app_assoc. f_equal. change (c :: 0 :: p2) with ([c] ++ 0 :: p2). rewrite app_assoc, HB. reflexivity. }
    rewrite AP. assert (SK := skip_ok iso a (S (length (a ++ d :: u ++ 0 :: p2))) [] d (u ++ 0 :: p2) (length (a ++ t) + 1) BA TA CD ID). cbn [app length] in SK.
    rewrite SK; [|rewrite app_length; lia|rewrite app_length; cbn [length]; lia]. cbn [bind]. rewrite Nat.add_0_l.
    rewrite get_eq by reflexivity. cbn [bind]. rewrite HB.
    assert (DN : (d =? NUL) = false) by (apply Z.eqb_neq; unfold NUL; lia). rewrite DN, orb_false_r. 
    assert (LEN : length (a ++ d :: u ++ 0 :: p2) = length ((a ++ d :: u) ++ b ++ 0 :: post)).
    { cbn [length] in ZL. rewrite <- app_assoc. rewrite !app_length. cbn [app length]. rewrite !app_length. cbn [length] in *. rewrite app_length in ZL. cbn [length] in ZL. lia. }
    destruct (d =? HASH).
    + eexists. split; [reflexivity|]. exact LEN.
    + rewrite (find_nul_at (d :: u) _ _ (length a) p2).
      * cbn [bind]. replace (length a + length (d :: u) - length a)%nat with (length (d :: u)) by lia.
        change (d :: u ++ 0 :: p2) with ((d :: u) ++ 0 :: p2). rewrite slice_eq by reflexivity. cbn [bind]. eexists. split; [reflexivity|]. exact LEN.
      * rewrite firstn_app, firstn_all, Nat.sub_diag. cbn [firstn]. rewrite app_nil_r. reflexivity.
      * rewrite app_length. lia.
      * rewrite <- HB. apply Forall_app. split; [eapply text_nz; eauto|]. constructor; [lia|constructor].
      * rewrite app_length. cbn [length]. rewrite app_length. cbn [length]. lia.
Qed.
Lemma stripped_nl line body : stripped line body -> stripped (line ++ [LF]) body.
Proof.
  intros (a & b & -> & BA & BB & X). exists a, (b ++ [LF]). split; [rewrite <- !app_assoc; reflexivity|]. split; [exact BA|]. split; [apply Forall_app; split; [exact BB|constructor; [reflexivity|constructor]]|exact X].
Qed.
Lemma fgets_line buf l rest r : line_of (length buf - 1) (l ++ rest) = r -> l ++ rest <> [] -> fst r = l -> (length l + 1 <= length buf)%nat ->
  exists post, fgets buf (l ++ rest) = Ok (Some (l ++ 0 :: post, snd r)) /\ length (l ++ 0 :: post) = length buf.
Proof.
  intros R NE F LE. unfold fgets. destruct (l ++ rest) as [|x y] eqn:E; [congruence|]. rewrite R. destruct r as [l' rest']. cbn [fst snd] in *. subst l'.
  destruct (split_block buf 0 (length l + 1)) as (pre & mid & post & EB & L1 & L2); [lia|]. destruct pre; [|discriminate L1].
  exists post. cbn [app] in EB. subst buf. change (mid ++ post) with ([] ++ mid ++ post) at 1. rewrite (blit_eq [] mid post (l ++ [NUL])) by (try reflexivity; rewrite app_length; cbn [length]; lia). cbn [bind app].
  rewrite <- app_assoc. cbn [app]. split; [reflexivity|]. rewrite !app_length. cbn [length app]. lia.
Qed.
Lemma read_ok iso last : ~ In LF last -> text_ok iso last -> forall ls ns k buf cs, lists (ls ++ [last]) ns -> Forall (fun l => ~ In LF l /\ (length l + 2 <= length buf)%nat) ls -> Forall (text_ok iso) ls ->
  (length last + 1 <= length buf)%nat -> (length (file_of ls last) < k)%nat -> read_loop iso k buf (file_of ls last) cs = Ok (cs ++ ns).
Proof.
  intros NL TL. induction ls as [|l ls IH]; intros ns k buf cs LI FI TI LB K; destruct k as [|k]; try lia.
  - cbn [app] in LI. unfold file_of in *. cbn [map concat app] in *. rewrite read_loop_pick.
    assert (NS : exists body, stripped last body /\ ns = match body with [] => [] | c :: _ => if c =? HASH then [] else [body] end).
    { inversion LI as [|? ? body ? ST OR LN|? ? body ? ST NE NH LN]; subst.
      - inversion LN; subst. exists body. split; [exact ST|]. destruct OR as [->|(t & ->)]; [reflexivity|]. rewrite Z.eqb_refl. reflexivity.
      - inversion LN; subst. exists body. split; [exact ST|]. destruct body as [|c t]; [congruence|]. destruct (Z.eqb_spec c HASH) as [->|_]; [destruct (NH t eq_refl)|reflexivity]. }
    destruct NS as (body & ST & ->). destruct last as [|x y].
    + cbn [fgets bind]. destruct ST as (a & b & E & _ & _ & _). symmetry in E. apply app_eq_nil in E. destruct E as [_ E]. apply app_eq_nil in E. destruct E as [-> _]. rewrite app_nil_r. reflexivity.
    + destruct (fgets_line buf (x :: y) [] (x :: y, [])) as (post & FG & LP).
      * rewrite app_nil_r. apply line_of_last; [exact NL|lia].
      * discriminate.
      * reflexivity.
      * exact LB.
      * rewrite app_nil_r in FG. rewrite FG. cbn [bind snd]. destruct (pick_ok iso (x :: y) body post ST TL) as (b2 & P & _). rewrite P. cbn [bind fst snd].
        destruct k as [|k]; [cbn [length] in K; lia|]. cbn [read_loop fgets bind]. destruct body as [|c t]; [rewrite app_nil_r; reflexivity|]. destruct (c =? HASH); [rewrite app_nil_r; reflexivity|reflexivity].
  - cbn [app] in LI. assert (FO : file_of (l :: ls) last = (l ++ [LF]) ++ file_of ls last) by (unfold file_of; cbn [map concat]; rewrite <- !app_assoc; reflexivity).
    rewrite FO in *. rewrite read_loop_pick. inversion FI as [|? ? [F1 F2] F3]; subst. inversion TI as [|? ? T1 T2]; subst.
    destruct (fgets_line buf (l ++ [LF]) (file_of ls last) (l ++ [LF], file_of ls last)) as (post & FG & LP).
    + rewrite <- app_assoc. apply line_of_short; [exact F1|lia].
    + destruct l; discriminate.
    + reflexivity.
    + rewrite app_length. cbn [length]. lia.
    + rewrite FG. cbn [bind snd].
      assert (TN : text_ok iso (l ++ [LF])) by (apply Forall_app; split; [exact T1|constructor; [destruct iso; unfold LF; lia|constructor]]).
      assert (NS : exists body ns', stripped l body /\ lists (ls ++ [last]) ns' /\ ns = match body with [] => ns' | c :: _ => if c =? HASH then ns' else body :: ns' end).
      { inversion LI as [|? ? body ? ST OR LN|? ? body ns' ST NE NH LN]; subst.
        - exists body, ns. split; [exact ST|]. split; [exact LN|]. destruct OR as [->|(t & ->)]; [reflexivity|]. rewrite Z.eqb_refl. reflexivity.
        - exists body, ns'. split; [exact ST|]. split; [exact LN|]. destruct body as [|c t]; [congruence|]. destruct (Z.eqb_spec c HASH) as [->|_]; [destruct (NH t eq_refl)|reflexivity]. }
      destruct NS as (body & ns' & ST & LN & ->). destruct (pick_ok iso (l ++ [LF]) body post (stripped_nl _ _ ST) TN) as (b2 & P & LB2). rewrite P. cbn [bind fst snd].
      assert (LEN : length b2 = length buf) by congruence.
      rewrite (IH ns').
      * destruct body as [|c t]; [reflexivity|]. destruct (c =? HASH); [reflexivity|]. rewrite <- app_assoc. reflexivity.
      * exact LN.
      * rewrite LEN. exact F3.
      * exact T2.
      * rewrite LEN. exact LB.
      * rewrite app_length in K. rewrite app_length in K. cbn [length] in K. lia.
Qed.
Lemma text_parts iso ls last : text_ok iso (file_of ls last) -> Forall (text_ok iso) ls /\ text_ok iso last.
Proof.
  unfold file_of. induction ls as [|l ls IH]; cbn [map concat app]; intros T; [auto|]. rewrite <- !app_assoc in T. apply Forall_app in T. destruct T as [T1 T]. apply Forall_app in T. destruct T as [_ T].
  destruct (IH T) as [A B]. split; [constructor; assumption|exact B].
Qed.
Lemma file_ok iso buf file ns cs : gives iso (length buf) file ns -> read_consoles_from_file iso buf cs (Some file) = Ok (cs ++ ns).
Proof.
  intros (ls & last & -> & F & NL & LE & T & LI). apply text_parts in T as T'. destruct T' as [T1 T2]. unfold read_consoles_from_file. apply read_ok; auto. 
Qed.
