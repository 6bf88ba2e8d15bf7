(** Proofs about watching for files. *)
From Verif Require Import Base BaseProof Mem Chars LexProof InevModel InevSpec.
From Coq Require Import ZifyNat.
Local Open Scope Z_scope.

Lemma eqb_eq a b : list_eqb a b = true <-> a = b.
Proof. apply LexProof.list_eqb_eq. Qed.

(** ** Paths *)
Lemma last_slash_app a f : ~ In 47 f -> forall i d, last_slash (a ++ 47 :: f) i d = Some (i + length a)%nat.
Proof.
  intros NF. assert (L0 : forall f, ~ In 47 f -> forall i d, last_slash f i d = d).
  { clear. induction f as [|c f IH]; intros N i d; cbn [last_slash]; [reflexivity|]. destruct (Z.eqb_spec c 47); [subst; destruct N; left; reflexivity|]. apply IH. intros H. apply N. right. exact H. }
  induction a as [|c a IH]; intros i d; cbn [app last_slash length].
  - change (47 =? 47) with true. cbv iota. rewrite L0 by auto. f_equal. lia.
  - rewrite IH. f_equal. lia.
Qed.
Lemma split_last (p : list Z) : In 47 p -> exists a f, p = a ++ 47 :: f /\ ~ In 47 f.
Proof.
  induction p as [|c p IH]; intros H; [destruct H|]. destruct (in_dec Z.eq_dec 47 p) as [I|N].
  - destruct (IH I) as (a & f & -> & NF). exists (c :: a), f. split; [reflexivity|exact NF].
  - destruct H as [->|H]; [|contradiction]. exists [], p. split; [reflexivity|exact N].
Qed.
Lemma upto_app a t : chars_ok a -> upto_nul (a ++ 0 :: t) = a.
Proof.
  induction a as [|c a IH]; intros C; [reflexivity|]. inversion C as [|? ? H1 H2]; subst. cbn [app upto_nul]. unfold char_ok in H1.
  destruct (Z.eqb_spec c 0); [lia|]. f_equal. auto.
Qed.
Lemma split_ok path t : path = 47 :: t -> chars_ok path -> exists d f, split_path path = Ok (d, f) /\ names path d f.
Proof.
  intros EP C. destruct (split_last path) as (a & f & E & NF); [subst; left; reflexivity|]. unfold split_path. rewrite E, last_slash_app by auto. rewrite Nat.add_0_l.
  assert (SK : skipn (length a + 1) (a ++ 47 :: f) = f) by (clear; induction a as [|x a IH]; [reflexivity|exact IH]).
  rewrite SK. rewrite E in C. apply Forall_app in C. destruct C as [CA CF]. inversion CF as [|? ? C47 CF']; subst.
  destruct a as [|c a].
  - change (length (@nil Z) =? 0)%nat with true. cbv iota. cbn [app length Nat.add] in *. exists [47], f. destruct f as [|x f].
    + split; [reflexivity|]. split; [exact NF|]. right. split; reflexivity.
    + unfold put. rewrite (blit_eq [47] [x] (f ++ [0]) [0]) by reflexivity. cbn [bind app]. split; [reflexivity|]. split; [exact NF|]. right. split; reflexivity.
  - change (length (c :: a) =? 0)%nat with false. cbv iota. unfold put. rewrite <- app_assoc. change ((47 :: f) ++ [0]) with ([47] ++ (f ++ [0])).
    rewrite (blit_eq (c :: a) [47] (f ++ [0]) [0]) by reflexivity. cbn [bind]. change ([0] ++ f ++ [0]) with (0 :: f ++ [0]). rewrite upto_app by auto.
    exists (c :: a), f. split; [reflexivity|]. split; [exact NF|]. left. split; [reflexivity|discriminate].
Qed.

(** ** The kernel *)
Record kinv (H : list (Z * Z)) (k : kern) : Prop := {
  ki_hist : incl (k_watch k) H;
  ki_wd : NoDup (map snd H);
  ki_range : forall p, In p H -> 1 <= snd p < k_next k;
  ki_next : 1 <= k_next k;
  ki_inode : NoDup (map fst (k_watch k));
  ki_ign : forall wd, In (EIgnored wd) (k_queue k) -> wd < k_next k /\ ~ In wd (map snd (k_watch k)) }.

Lemma watch_in H k inode wd : kinv H k -> (watch_of k inode = Some wd <-> In (inode, wd) (k_watch k)).
Proof.
  intros KI. unfold watch_of. pose proof (ki_inode _ _ KI) as ND. revert ND. generalize (k_watch k) as w. induction w as [|[i v] w IH]; intros ND; cbn [find fst].
  - split; [discriminate|intros []].
  - cbn [map fst] in ND. inversion ND as [|? ? NI ND']; subst. destruct (Z.eqb_spec i inode) as [->|NE].
    + split; [intros E; injection E as <-; left; reflexivity|]. intros [E|I]; [injection E as ->; reflexivity|]. destruct NI. apply (in_map fst) in I. exact I.
    + rewrite IH by auto. split; [intros I; right; exact I|]. intros [E|I]; [injection E as -> ->; congruence|exact I].
Qed.
Lemma enqueue_shape e k : k_watch (enqueue e k) = k_watch k /\ k_next (enqueue e k) = k_next k /\
  (k_queue (enqueue e k) = k_queue k ++ [e] \/ (k_queue (enqueue e k) = k_queue k /\ exists q, k_queue k = q ++ [e])).
Proof.
  unfold enqueue. destruct (rev (k_queue k)) as [|x q] eqn:R; cbn [k_watch k_next k_queue]; [auto|].
  destruct (event_eqb x e) eqn:E; cbn [k_watch k_next k_queue]; [|auto]. split; [reflexivity|]. split; [reflexivity|]. right. split; [reflexivity|].
  exists (rev q). rewrite <- (rev_involutive (k_queue k)), R. cbn [rev]. f_equal. f_equal.
  destruct x as [w n|w], e as [v m|v]; cbn [event_eqb] in E; try discriminate.
  - apply andb_true_iff in E. destruct E as [E1 E2]. apply Z.eqb_eq in E1. apply eqb_eq in E2. congruence.
  - apply Z.eqb_eq in E. congruence.
Qed.
Lemma enqueue_in e k x : In x (k_queue (enqueue e k)) <-> x = e \/ In x (k_queue k).
Proof.
  destruct (enqueue_shape e k) as (_ & _ & [->|[-> (q & Q)]]); [rewrite in_app_iff; cbn [In]; intuition|]. split; [auto|]. intros [->|I]; [rewrite Q; apply in_or_app; right; left; reflexivity|exact I].
Qed.
Lemma add_watch_ok H k inode k' wd : kinv H k -> add_watch k inode = (k', wd) ->
  exists H', kinv H' k' /\ incl H H' /\ In (inode, wd) (k_watch k') /\ incl (k_watch k) (k_watch k') /\ k_queue k' = k_queue k /\
  (forall p, In p (k_watch k') -> In p (k_watch k) \/ p = (inode, wd)).
Proof.
  intros KI. unfold add_watch. destruct (watch_of k inode) as [v|] eqn:W; intros E; injection E as <- <-.
  - exists H. apply (watch_in H) in W; auto. split; [exact KI|]. split; [apply incl_refl|]. split; [exact W|]. split; [apply incl_refl|]. split; [reflexivity|auto].
  - exists ((inode, k_next k) :: H). assert (NW : ~ In inode (map fst (k_watch k))).
    { intros I. apply in_map_iff in I. destruct I as ([i v] & <- & I). apply (watch_in H) in I; auto. cbn [fst] in W. congruence. }
    pose proof (ki_next _ _ KI) as N1. split; [constructor; cbn [k_watch k_next k_queue]|].
    + intros p [<-|I]; [left; reflexivity|right; apply (ki_hist _ _ KI); exact I].
    + cbn [map snd]. constructor; [|apply (ki_wd _ _ KI)]. intros I. apply in_map_iff in I. destruct I as ([i v] & E & I). apply (ki_range _ _ KI) in I. cbn [snd] in *. lia.
    + intros p [<-|I]; cbn [snd]; [lia|]. apply (ki_range _ _ KI) in I. lia.
    + lia.
    + cbn [map fst]. constructor; [exact NW|apply (ki_inode _ _ KI)].
    + intros wd I. destruct (ki_ign _ _ KI wd I) as [L NI]. split; [lia|]. cbn [map snd]. intros [E|I2]; [lia|contradiction].
    + cbn [k_watch k_queue]. split; [intros p I; right; exact I|]. split; [left; reflexivity|]. split; [intros p I; right; exact I|]. split; [reflexivity|].
      intros p [<-|I]; auto.
Qed.
Lemma NoDup_filter_map {A B} (f : A -> B) (g : A -> bool) l : NoDup (map f l) -> NoDup (map f (filter g l)).
Proof.
  induction l as [|a l IH]; intros N; [constructor|]. cbn [map filter] in *. inversion N as [|? ? N1 N2]; subst. destruct (g a); [|auto]. cbn [map]. constructor; [|auto].
  intros I. apply N1. apply in_map_iff in I. destruct I as (x & <- & I). apply filter_In in I. apply in_map. tauto.
Qed.
Lemma rm_watch_ok H k wd : kinv H k ->
  kinv H (rm_watch k wd) /\ k_watch (rm_watch k wd) = filter (fun p => negb (snd p =? wd)) (k_watch k) /\ k_next (rm_watch k wd) = k_next k /\
  (forall x, In x (k_queue k) -> In x (k_queue (rm_watch k wd))) /\ (forall x, In x (k_queue (rm_watch k wd)) -> In x (k_queue k) \/ x = EIgnored wd) /\
  (exists q, k_queue (rm_watch k wd) = k_queue k ++ q) /\
  (In wd (map snd (k_watch k)) -> In (EIgnored wd) (k_queue (rm_watch k wd))).
Proof.
  intros KI. unfold rm_watch. destruct (existsb (fun p => snd p =? wd) (k_watch k)) eqn:X.
  - set (k1 := mkK (filter (fun p => negb (snd p =? wd)) (k_watch k)) (k_next k) (k_queue k)). destruct (enqueue_shape (EIgnored wd) k1) as (W & N & Q).
    assert (QI := enqueue_in (EIgnored wd) k1). apply existsb_exists in X. destruct X as (p & PI & PW). apply Z.eqb_eq in PW.
    split; [constructor|].
    + rewrite W. intros x I. unfold k1 in I. cbn [k_watch] in I. apply filter_In in I. apply (ki_hist _ _ KI). tauto.
    + apply (ki_wd _ _ KI).
    + rewrite N. apply (ki_range _ _ KI).
    + rewrite N. apply (ki_next _ _ KI).
    + rewrite W. unfold k1. cbn [k_watch]. apply NoDup_filter_map. apply (ki_inode _ _ KI).
    + intros w I. apply QI in I. rewrite N, W. unfold k1 in *. cbn [k_watch k_next k_queue] in *. destruct I as [E|I].
      * injection E as ->. split; [apply (ki_hist _ _ KI) in PI; apply (ki_range _ _ KI) in PI; rewrite PW in PI; lia|].
        intros I. apply in_map_iff in I. destruct I as (x & E & I). apply filter_In in I. destruct I as [_ I]. rewrite E, Z.eqb_refl in I. discriminate I.
      * destruct (ki_ign _ _ KI w I) as [L NI]. split; [exact L|]. intros I2. apply NI. apply in_map_iff in I2. destruct I2 as (x & E & I2). apply filter_In in I2. apply in_map_iff. exists x. tauto.
    + rewrite W, N. split; [reflexivity|]. split; [reflexivity|]. unfold k1 in QI. cbn [k_queue] in QI. split; [intros x I; apply QI; auto|].
      split; [intros x I; apply QI in I; tauto|]. split; [destruct Q as [->|[-> _]]; [eexists; reflexivity|exists []; rewrite app_nil_r; reflexivity]|]. intros _. apply QI. auto.
  - assert (F : filter (fun p => negb (snd p =? wd)) (k_watch k) = k_watch k).
    { clear - X. induction (k_watch k) as [|a w IH]; [reflexivity|]. cbn [existsb filter] in *. apply orb_false_iff in X. destruct X as [X1 X2]. rewrite X1. cbn [negb]. f_equal. auto. }
    rewrite F. split; [exact KI|]. split; [reflexivity|]. split; [reflexivity|]. split; [auto|]. split; [auto|]. split; [exists []; rewrite app_nil_r; reflexivity|].
    intros I. apply in_map_iff in I. destruct I as (p & E & I). assert (X' : existsb (fun p => snd p =? wd) (k_watch k) = true) by (apply existsb_exists; exists p; rewrite E, Z.eqb_refl; auto). congruence.
Qed.
Lemma created_ok H k inode name : kinv H k -> kinv H (k_created k inode name) /\ k_watch (k_created k inode name) = k_watch k /\
  (forall x, In x (k_queue k) -> In x (k_queue (k_created k inode name))) /\
  (exists q, k_queue (k_created k inode name) = k_queue k ++ q) /\
  (forall x, In x (k_queue (k_created k inode name)) -> In x (k_queue k) \/ exists wd, In (inode, wd) (k_watch k) /\ x = ECreate wd name).
Proof.
  intros KI. unfold k_created. destruct (watch_of k inode) as [wd|] eqn:W.
  - apply (watch_in H) in W; auto. destruct (enqueue_shape (ECreate wd name) k) as (W1 & N & Q). pose proof (enqueue_in (ECreate wd name) k) as QI. split; [constructor|].
    + rewrite W1. apply (ki_hist _ _ KI).
    + apply (ki_wd _ _ KI).
    + rewrite N. apply (ki_range _ _ KI).
    + rewrite N. apply (ki_next _ _ KI).
    + rewrite W1. apply (ki_inode _ _ KI).
    + intros v I. apply QI in I. rewrite N, W1. destruct I as [E|I]; [discriminate E|]. apply (ki_ign _ _ KI v I).
    + split; [exact W1|]. split; [intros x I; apply QI; auto|]. split; [destruct Q as [->|[-> _]]; [eexists; reflexivity|exists []; rewrite app_nil_r; reflexivity]|].
      intros x I. apply QI in I. destruct I as [->|I]; [right; exists wd; auto|auto].
  - split; [exact KI|]. split; [reflexivity|]. split; [auto|]. split; [exists []; rewrite app_nil_r; reflexivity|]. auto.
Qed.
Lemma gone_ok H k inode : kinv H k ->
  exists q, kinv H (k_gone k inode) /\ k_queue (k_gone k inode) = k_queue k ++ q /\
  incl (k_watch (k_gone k inode)) (k_watch k) /\
  (forall i wd, In (i, wd) (k_watch k) -> In (i, wd) (k_watch (k_gone k inode)) \/ i = inode /\ In (EIgnored wd) (k_queue (k_gone k inode))) /\
  (forall x, In x q -> exists wd, x = EIgnored wd).
Proof.
  intros KI. unfold k_gone. destruct (watch_of k inode) as [wd|] eqn:W.
  - apply (watch_in H) in W; auto. destruct (rm_watch_ok H k wd KI) as (K1 & WF & _ & QK & QI & (q & Q) & IG). exists q. split; [exact K1|]. split; [exact Q|].
    split; [rewrite WF; intros x I; apply filter_In in I; tauto|]. split.
    + intros i v I. rewrite WF. destruct (Z.eqb_spec v wd) as [->|NE].
      * right. split.
        -- assert (PI1 := ki_hist _ _ KI _ I). assert (PI2 := ki_hist _ _ KI _ W). pose proof (ki_wd _ _ KI) as ND. clear - PI1 PI2 ND.
           induction H as [|[a b] H IH]; [destruct PI1|]. cbn [map snd] in ND. inversion ND as [|? ? N1 N2]; subst. destruct PI1 as [E|PI1], PI2 as [E'|PI2].
           ++ congruence.
           ++ injection E as -> ->. destruct N1. apply (in_map snd) in PI2. exact PI2.
           ++ injection E' as -> ->. destruct N1. apply (in_map snd) in PI1. exact PI1.
           ++ auto.
        -- apply IG. apply in_map_iff. exists (i, wd). auto.
      * left. apply filter_In. split; [exact I|]. cbn [snd]. destruct (Z.eqb_spec v wd); [congruence|reflexivity].
    + intros x I. assert (X : In x (k_queue (rm_watch k wd))) by (rewrite Q; apply in_or_app; auto). rewrite Q in QI.
      unfold rm_watch in Q. destruct (existsb _ _); [|rewrite <- (app_nil_r (k_queue k)) in Q at 1; apply app_inv_head in Q; subst; destruct I].
      destruct (enqueue_shape (EIgnored wd) (mkK (filter (fun p => negb (snd p =? wd)) (k_watch k)) (k_next k) (k_queue k))) as (_ & _ & [E|[E _]]); cbn [k_queue] in E; rewrite E in Q.
      * apply app_inv_head in Q. subst q. destruct I as [<-|[]]. eauto.
      * rewrite <- (app_nil_r (k_queue k)) in Q at 1. apply app_inv_head in Q. subst. destruct I.
  - exists []. rewrite app_nil_r. split; [exact KI|]. split; [reflexivity|]. split; [apply incl_refl|]. split; [auto|intros x []].
Qed.

(** ** The daemon.  [past]: what has happened *)
Definition came_from (past : list op) (r : reg) (inode : Z) : Prop :=
  exists ok dir, In (Add ok dir (r_path r) (r_cb r)) past /\ names (r_path r) (r_dir r) (r_file r) /\ dir (r_dir r) = Some inode.
Record inv (past : list op) (s : st) : Prop := {
  iv_off : i_fd s = false -> i_list s = None /\ i_k s = k0;
  iv_on : i_fd s = true -> exists l H, i_list s = Some l /\ kinv H (i_k s) /\
    NoDup (map r_path l) /\
    (forall r, In r l -> r_cb r <> 0 /\ exists inode, In (inode, r_wd r) H /\ came_from past r inode /\
       (In (inode, r_wd r) (k_watch (i_k s)) \/ In (EIgnored (r_wd r)) (k_queue (i_k s)))) /\
    (forall p, In p (k_watch (i_k s)) -> exists r, In r l /\ r_wd r = snd p) /\
    (forall wd name, In (ECreate wd name) (k_queue (i_k s)) -> exists inode, In (inode, wd) H /\ In (Created inode name) past) }.
Lemma inv0 : inv [] st0.
Proof. constructor; [auto|discriminate]. Qed.

Lemma came_more past o r i : came_from past r i -> came_from (past ++ [o]) r i.
Proof. intros (ok & dir & I & X). exists ok, dir. split; [apply in_or_app; auto|exact X]. Qed.
Lemma find_path l path r : find (by_path path) l = Some r -> In r l /\ r_path r = path.
Proof. intros F. apply find_some in F. destruct F as [I F]. apply eqb_eq in F. auto. Qed.
Lemma remove_in path l r : In r (remove_first (by_path path) l) -> In r l.
Proof. induction l as [|a l IH]; [auto|]. cbn [remove_first]. destruct (by_path path a); [intros; right; auto|]. intros [->|I]; [left; reflexivity|right; auto]. Qed.
Lemma remove_other path l r : In r l -> r_path r <> path -> In r (remove_first (by_path path) l).
Proof.
  induction l as [|a l IH]; [auto|]. cbn [remove_first]. destruct (by_path path a) eqn:B; intros [->|I] N; auto.
  - apply eqb_eq in B. congruence.
  - left. reflexivity.
  - right. auto.
Qed.
Lemma remove_nodup path l : NoDup (map r_path l) -> NoDup (map r_path (remove_first (by_path path) l)) /\ ~ In path (map r_path (remove_first (by_path path) l)).
Proof.
  induction l as [|a l IH]; intros N; [split; [constructor|auto]|]. cbn [map] in N. inversion N as [|? ? N1 N2]; subst. cbn [remove_first]. destruct (by_path path a) eqn:B.
  - apply eqb_eq in B. subst path. auto.
  - destruct (IH N2) as [M1 M2]. cbn [map]. split; [constructor; [|exact M1]|].
    + intros I. apply N1. apply in_map_iff in I. destruct I as (x & E & I). rewrite <- E. apply in_map. eapply remove_in; eauto.
    + intros [E|I]; [|contradiction]. unfold by_path in B. rewrite E in B. assert (T : list_eqb path path = true) by (apply eqb_eq; reflexivity). congruence.
Qed.

(** callbacks have a cause *)
Lemma process_in l es : (forall r, In r (fst (process_events l es)) <-> In r l /\ forall wd, In (EIgnored wd) es -> r_wd r <> wd).
Proof.
  revert l. induction es as [|[wd name|wd] es IH]; intros l r; cbn [process_events].
  - cbn [fst]. split; [intros H; split; [exact H|intros ? []]|tauto].
  - destruct (process_events l es) as [l' ran] eqn:P. pose proof (IH l r) as X. rewrite P in X. cbn [fst] in X.
    assert (F : fst (match name with [] => (l', ran) | _ => match find (by_event wd name) l with Some r => (l', if r_cb r =? 0 then ran else r_cb r :: ran) | None => (l', ran) end end) = l')
      by (destruct name; [reflexivity|]; destruct (find _ l); reflexivity).
    rewrite F, X. cbn [In]. split; intros [A B]; (split; [exact A|]); intros w I; apply B; [destruct I as [I|I]; [discriminate I|exact I]|auto].
  - rewrite IH, filter_In. unfold by_wd. cbn [In]. split.
    + intros [[A B] C]. split; [exact A|]. intros w [E|I]; [injection E as <-; intros E; rewrite E, Z.eqb_refl in B; discriminate B|auto].
    + intros [A B]. split; [split; [exact A|]|intros w I; apply B; auto]. destruct (Z.eqb_spec (r_wd r) wd) as [E|]; [destruct (B wd (or_introl eq_refl) E)|reflexivity].
Qed.
Lemma process_ran l es cb : In cb (snd (process_events l es)) -> exists r name, In r l /\ r_cb r = cb /\ In (ECreate (r_wd r) name) es /\ r_file r = name.
Proof.
  revert l. induction es as [|[wd name|wd] es IH]; intros l I; cbn [process_events] in I; [destruct I| |].
  - pose proof (IH l) as IH'. destruct (process_events l es) as [l' ran]. cbn [snd] in IH'.
    assert (X : In cb ran -> exists r nm, In r l /\ r_cb r = cb /\ In (ECreate (r_wd r) nm) (ECreate wd name :: es) /\ r_file r = nm).
    { intros C. destruct (IH' C) as (r & nm & A & B & D & E). exists r, nm. repeat (split; [assumption|]). split; [right; exact D|exact E]. }
    destruct name as [|c name]; [auto|]. destruct (find (by_event wd (c :: name)) l) as [r|] eqn:F; [|auto]. apply find_some in F. destruct F as [RI F].
    unfold by_event in F. apply andb_true_iff in F. destruct F as [F1 F2]. apply Z.eqb_eq in F1. apply eqb_eq in F2. cbn [snd] in I.
    destruct (r_cb r =? 0); [auto|]. destruct I as [<-|I]; [|auto]. exists r, (c :: name). split; [exact RI|]. split; [reflexivity|]. split; [left; rewrite F1; reflexivity|exact F2].
  - destruct (IH _ I) as (r & nm & A & B & D & E). apply filter_In in A. exists r, nm. split; [tauto|]. split; [exact B|]. split; [right; exact D|exact E].
Qed.
Lemma wd_inode H k i j wd : kinv H k -> In (i, wd) H -> In (j, wd) H -> i = j.
Proof.
  intros KI A B. pose proof (ki_wd _ _ KI) as ND. clear KI. induction H as [|[a b] H IH]; [destruct A|]. cbn [map snd] in ND. inversion ND as [|? ? N1 N2]; subst.
  destruct A as [A|A], B as [B|B].
  - congruence.
  - injection A as -> ->. destruct N1. apply (in_map snd) in B. exact B.
  - injection B as -> ->. destruct N1. apply (in_map snd) in A. exact A.
  - auto.
Qed.
Lemma k0_inv : kinv [] k0.
Proof. constructor; cbn; try constructor; try lia; try (intros ? []); intros []. Qed.

Lemma add_step dbg past s ok dir path cb : inv past s -> chars_ok path -> (dbg = true -> ok = true) ->
  exists s' rv, inevent_add dbg ok dir s path cb = Ok (s', rv) /\ inv (past ++ [Add ok dir path cb]) s' /\
  (rv = 0 -> exists t d f inode, path = 47 :: t /\ names path d f /\ dir d = Some inode /\ watching s' path inode cb) /\
  (forall p i c, watching s p i c -> watching s' p i c).
Proof.
  intros IV CP OK. set (past' := past ++ [Add ok dir path cb]).
  assert (SAME : inv past' s).
  { destruct IV as [OFF ON]. constructor; [exact OFF|]. intros F. destruct (ON F) as (l & H & L & K & ND & RG & WT & QE). exists l, H. repeat (split; [assumption|]). split; [|split; [exact WT|]].
    - intros r I. destruct (RG r I) as (CB & i & A & B & C). split; [exact CB|]. exists i. split; [exact A|]. split; [apply came_more; exact B|exact C].
    - intros wd nm I. destruct (QE wd nm I) as (i & A & B). exists i. split; [exact A|]. apply in_or_app. auto. }
  assert (TRIV : exists s' rv, Ok (s, -1) = Ok (s', rv) /\ inv past' s' /\ (rv = 0 -> exists t d f inode, path = 47 :: t /\ names path d f /\ dir d = Some inode /\ watching s' path inode cb) /\ (forall p i c, watching s p i c -> watching s' p i c)).
  { exists s, (-1). split; [reflexivity|]. split; [exact SAME|]. split; [discriminate|auto]. }
  unfold inevent_add. destruct (Z.eqb_spec cb 0) as [|CB0]; [exact TRIV|].
  destruct path as [|c t]; [exact TRIV|]. destruct (Z.eq_dec c 47) as [->|NE].
  2:{ assert (E : forall A (x y : A), match c with 47 => x | _ => y end = y). { intros A x y. destruct c as [|q|q]; try reflexivity. repeat (destruct q as [q|q|]; try reflexivity). contradiction. } rewrite E. exact TRIV. }
  set (path := 47 :: t) in *.
  assert (GO : forall s1, inv past' s1 -> i_fd s1 = true -> (forall p i c, watching s p i c -> watching s1 p i c) ->
    exists s' rv, match i_list s1 with None => UB NullDeref | Some l =>
            match find (by_path path) l with
            | Some _ => Ok (s1, -1)
            | None => do r <- inevent_create dir (i_k s1) path cb;
                match snd r with
                | None => Ok (mkSt (i_fd s1) (i_list s1) (fst r), -1)
                | Some g => Ok (mkSt (i_fd s1) (Some (l ++ [g])) (fst r), 0)
                end
            end end = Ok (s', rv) /\ inv past' s' /\
      (rv = 0 -> exists t d f inode, path = 47 :: t /\ names path d f /\ dir d = Some inode /\ watching s' path inode cb) /\ (forall p i c, watching s p i c -> watching s' p i c)).
  { intros s1 IV1 FD WW. pose proof (iv_on _ _ IV1 FD) as (l & H & L & K & ND & RG & WT & QE). rewrite L.
    destruct (find (by_path path) l) as [g|] eqn:F; [exists s1, (-1); split; [reflexivity|]; split; [exact IV1|]; split; [discriminate|exact WW]|].
    destruct (split_ok path t eq_refl CP) as (d & f & SP & NM). unfold inevent_create. rewrite SP. cbn [bind fst snd].
    destruct (dir d) as [inode|] eqn:D; cbn [bind fst snd].
    2:{ exists (mkSt (i_fd s1) (Some l) (i_k s1)), (-1). split; [rewrite <- L; reflexivity|]. split; [|split; [discriminate|]].
        - destruct s1. cbn in *. subst. exact IV1.
        - intros p i c' W. apply WW in W. destruct W as (l' & r & A & B). exists l', r. cbn [i_list i_k]. rewrite <- L. auto. }
    destruct (add_watch (i_k s1) inode) as [k' wd] eqn:AW. cbn [bind fst snd]. destruct (add_watch_ok H _ _ _ _ K AW) as (H' & K' & HI & IW & WI & QS & WB).
    eexists _, 0. split; [reflexivity|]. set (g := mkReg path d f cb wd). split; [|split].
    - constructor; cbn [i_fd]; [congruence|]. intros _. exists (l ++ [g]), H'. cbn [i_list i_k]. split; [reflexivity|]. split; [exact K'|]. split; [|split; [|split]].
      + rewrite map_app. cbn [map]. assert (NI : ~ In path (map r_path l)).
        { intros I. apply in_map_iff in I. destruct I as (x & E & I). pose proof (find_none _ _ F x I) as N. unfold by_path in N. rewrite E in N. assert (T : list_eqb path path = true) by (apply eqb_eq; reflexivity). congruence. }
        clear - ND NI. induction l as [|a l IH]; cbn [map app] in *; [constructor; [intros []|constructor]|]. inversion ND as [|? ? N1 N2]; subst. constructor; [|apply IH; [exact N2|intros X; apply NI; right; exact X]].
        intros I. apply in_app_or in I. destruct I as [I|[I|[]]]; [contradiction|]. apply NI. left. symmetry. exact I.
      + intros r I. apply in_app_or in I. rewrite QS. destruct I as [I|[<-|[]]].
        * destruct (RG r I) as (CB & i & A & B & C). split; [exact CB|]. exists i. split; [apply HI; exact A|]. split; [exact B|]. destruct C as [C|C]; [left; apply WI; exact C|right; exact C].
        * cbn [r_cb r_wd g]. split; [exact CB0|]. exists inode. split; [apply (ki_hist _ _ K'); exact IW|]. split; [|left; exact IW].
          exists ok, dir. cbn [r_path r_cb r_dir r_file g]. split; [apply in_or_app; right; left; reflexivity|]. split; [exact NM|exact D].
      + intros p I. apply WB in I. destruct I as [I| ->]; [destruct (WT p I) as (r & A & B); exists r; split; [apply in_or_app; auto|exact B]|].
        exists g. split; [apply in_or_app; right; left; reflexivity|reflexivity].
      + rewrite QS. intros w nm I. destruct (QE w nm I) as (i & A & B). exists i. split; [apply HI; exact A|exact B].
    - intros _. exists t, d, f, inode. split; [reflexivity|]. split; [exact NM|]. split; [exact D|]. exists (l ++ [g]), g. cbn [i_list i_k]. split; [reflexivity|].
      split; [apply in_or_app; right; left; reflexivity|]. split; [reflexivity|]. split; [reflexivity|exact IW].
    - intros p i c' W. apply WW in W. destruct W as (l' & r & A & B & C & E & G). rewrite L in A. injection A as <-. exists (l ++ [g]), r. cbn [i_list i_k].
      split; [reflexivity|]. split; [apply in_or_app; auto|]. split; [exact C|]. split; [exact E|]. apply WI. exact G. }
  destruct (i_fd s) eqn:FD.
  - cbn [bind]. cbv beta iota. apply GO; auto.
  - destruct (iv_off _ _ SAME FD) as [L0 K0]. unfold inevent_init. rewrite FD, L0. cbn [assert_ negb bind]. destruct ok.
    + cbn [bind]. cbv beta iota. apply GO; [|reflexivity|].
      * constructor; [discriminate|]. intros _. exists [], []. cbn [i_list i_k]. split; [reflexivity|]. split; [apply k0_inv|]. split; [constructor|]. split; [intros ? []|]. split; [intros ? []|intros ? ? []].
      * intros p i c' (l' & r & A & _). congruence.
    + destruct dbg; [specialize (OK eq_refl); discriminate|]. unfold inevent_fini. cbn [assert_if bind]. cbv beta iota. exists (mkSt false None k0), (-1). split; [reflexivity|].
      split; [constructor; [auto|discriminate]|]. split; [discriminate|]. intros p i c' (l' & r & A & _). congruence.
Qed.

Lemma remove_step dbg past s path : inv past s ->
  exists s', inevent_remove dbg s path = Ok s' /\ inv (past ++ [Remove path]) s' /\ (forall p i c, p <> path -> watching s p i c -> watching s' p i c) /\
  (forall c, ~ registered s' path c).
Proof.
  intros IV. set (past' := past ++ [Remove path]).
  assert (SAME : inv past' s).
  { destruct IV as [OFF ON]. constructor; [exact OFF|]. intros F. destruct (ON F) as (l & H & L & K & ND & RG & WT & QE). exists l, H. repeat (split; [assumption|]). split; [|split; [exact WT|]].
    - intros r I. destruct (RG r I) as (CB & i & A & B & C). split; [exact CB|]. exists i. split; [exact A|]. split; [apply came_more; exact B|exact C].
    - intros wd nm I. destruct (QE wd nm I) as (i & A & B). exists i. split; [exact A|]. apply in_or_app. auto. }
  unfold inevent_remove. destruct (i_list s) as [l|] eqn:L.
  2:{ exists s. split; [reflexivity|]. split; [exact SAME|]. split; [auto|]. intros c (l & r & A & _). congruence. }
  destruct (find (by_path path) l) as [g|] eqn:F.
  2:{ exists s. split; [reflexivity|]. split; [exact SAME|]. split; [auto|]. intros c (l' & r & A & B & C & _). rewrite L in A. injection A as <-.
      pose proof (find_none _ _ F r B) as N. unfold by_path in N. rewrite C in N. assert (T : list_eqb path path = true) by (apply eqb_eq; reflexivity). congruence. }
  assert (FD : i_fd s = true) by (destruct (i_fd s) eqn:FD; [reflexivity|]; destruct (iv_off _ _ IV FD); congruence).
  destruct (iv_on _ _ SAME FD) as (l0 & H & L0 & K & ND & RG & WT & QE). assert (l0 = l) by congruence. subst l0. clear L0.
  destruct (find_path _ _ _ F) as [GI GP]. destruct (remove_nodup path l ND) as [ND' NP]. set (l1 := remove_first (by_path path) l) in *.
  set (k1 := if (0 <=? r_wd g) && (length (filter (by_wd (r_wd g)) l1) =? 0)%nat then rm_watch (i_k s) (r_wd g) else i_k s).
  destruct (rm_watch_ok H (i_k s) (r_wd g) K) as (K1 & WF & _ & QK & QI & (q & Q) & IG).
  assert (KK : kinv H k1) by (unfold k1; destruct (_ && _); auto).
  assert (WK : forall r i, In r l1 -> In (i, r_wd r) (k_watch (i_k s)) -> In (i, r_wd r) (k_watch k1)).
  { intros r i RI W. unfold k1. destruct ((0 <=? r_wd g) && _) eqn:E; [|exact W]. rewrite WF. apply filter_In. split; [exact W|]. cbn [snd].
    apply andb_true_iff in E. destruct E as [_ E]. destruct (Z.eqb_spec (r_wd r) (r_wd g)) as [EW|]; [|reflexivity].
    assert (X : In r (filter (by_wd (r_wd g)) l1)) by (apply filter_In; split; [exact RI|]; unfold by_wd; rewrite EW; apply Z.eqb_refl). destruct (filter (by_wd (r_wd g)) l1); [destruct X|discriminate E]. }
  assert (INV1 : inv past' (mkSt (i_fd s) (Some l1) k1)).
  { constructor; cbn [i_fd]; [congruence|]. intros _. exists l1, H. cbn [i_list i_k]. split; [reflexivity|]. split; [exact KK|]. split; [exact ND'|]. split; [|split].
    - intros r I. destruct (RG r (remove_in _ _ _ I)) as (CB & i & A & B & C). split; [exact CB|]. exists i. split; [exact A|]. split; [exact B|].
      destruct C as [C|C]; [left; apply WK; auto|right]. unfold k1. destruct (_ && _); auto.
    - intros p I. unfold k1 in I. destruct ((0 <=? r_wd g) && _) eqn:E.
      + rewrite WF in I. apply filter_In in I. destruct I as [I N]. destruct (WT p I) as (r & A & B). exists r. split; [|exact B]. apply remove_other; [exact A|].
        intros EP. assert (r = g). { clear - A GI EP GP ND. induction l as [|a l IH]; [destruct A|]. cbn [map] in ND. inversion ND as [|? ? N1 N2]; subst. destruct A as [->|A], GI as [->|GI]; auto.
          - destruct N1. rewrite EP. apply in_map. exact GI.
          - destruct N1. rewrite <- EP. apply in_map. exact A. }
        subst r. rewrite <- B, Z.eqb_refl in N. discriminate N.
      + destruct (WT p I) as (r & A & B). destruct (list_eq_dec Z.eq_dec (r_path r) path) as [EP|NP']; [|exists r; split; [apply remove_other; auto|exact B]].
        assert (r = g). { clear - A GI EP GP ND. induction l as [|a l IH]; [destruct A|]. cbn [map] in ND. inversion ND as [|? ? N1 N2]; subst. destruct A as [->|A], GI as [->|GI]; auto.
          - destruct N1. rewrite EP. apply in_map. exact GI.
          - destruct N1. rewrite <- EP. apply in_map. exact A. }
        subst r. assert (W0 : 0 <= r_wd g) by (rewrite B; apply (ki_hist _ _ K) in I; apply (ki_range _ _ K) in I; lia). destruct (Z.leb_spec 0 (r_wd g)); [|lia]. cbn [andb] in E.
        destruct (filter (by_wd (r_wd g)) l1) as [|x xs] eqn:FF; [discriminate E|]. exists x. assert (X : In x (filter (by_wd (r_wd g)) l1)) by (rewrite FF; left; reflexivity).
        apply filter_In in X. destruct X as [X1 X2]. unfold by_wd in X2. apply Z.eqb_eq in X2. split; [exact X1|congruence].
    - intros wd nm I. apply QE. unfold k1 in I. destruct (_ && _); [|exact I]. apply QI in I. destruct I as [I|E]; [exact I|discriminate E]. }
  assert (WATCH : forall p i c, p <> path -> watching s p i c -> exists r, In r l1 /\ r_path r = p /\ r_cb r = c /\ In (i, r_wd r) (k_watch k1)).
  { intros p i c NP' (l' & r & A & B & C & D & E). rewrite L in A. injection A as <-. exists r. assert (R1 : In r l1) by (apply remove_other; [exact B|congruence]). repeat (split; [assumption|]). apply WK; auto. }
  destruct l1 as [|x xs] eqn:EL.
  - unfold inevent_fini. cbn [i_fd i_list]. rewrite FD. assert (AS : forall b, assert_if b true = Ok tt) by (intros []; reflexivity). rewrite !AS. cbn [bind].
    exists (mkSt false None k0). split; [reflexivity|]. split; [constructor; [auto|discriminate]|]. split; [|intros c (l' & r & A & _); discriminate A].
    intros p i c NP' W. destruct (WATCH p i c NP' W) as (r & [] & _).
  - eexists. split; [reflexivity|]. split; [exact INV1|]. split.
    + intros p i c NP' W. destruct (WATCH p i c NP' W) as (r & A & B & C & D). exists (x :: xs), r. cbn [i_list i_k]. auto.
    + intros c (l' & r & A & B & C & _). cbn [i_list] in A. injection A as <-. apply NP. rewrite <- C. apply in_map. exact B.
Qed.
