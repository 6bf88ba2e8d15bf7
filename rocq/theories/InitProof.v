From Coq Require Import String Lia.
From Verif Require Import Base Chars Fmt InitModel InitSpec.
Local Open Scope Z_scope.

(** ** SIGCHLD *)
Lemma take_some cs p cs' : take_ended cs = Some (p, cs') ->
  (S (List.length cs') = List.length cs)%nat /\ filter runs cs' = filter runs cs.
Proof.
  revert p cs'. induction cs as [|[q b] cs IH]; intros p cs' H; [discriminate|]. cbn [take_ended] in H. destruct b.
  - injection H as _ <-. auto.
  - destruct (take_ended cs) as [[r cs1]|]; [|discriminate]. injection H as <- <-.
    destruct (IH _ _ eq_refl) as [H1 H2]. cbn [List.length filter runs snd negb]. rewrite H2, H1. auto.
Qed.
Lemma take_none cs : take_ended cs = None -> filter runs cs = cs.
Proof.
  induction cs as [|[q b] cs IH]; [reflexivity|]. cbn [take_ended]. destruct b; [discriminate|].
  destruct (take_ended cs) as [[r cs1]|]; [discriminate|]. intros _. cbn [filter runs snd negb]. now rewrite IH.
Qed.
Lemma wait_loop_ok fuel : forall cs e, (List.length cs < fuel)%nat ->
  wait_loop fuel cs e = Ok (filter runs cs, match filter runs cs with [] => ECHILD | _ => e end).
Proof.
  induction fuel as [|fuel IH]; intros cs e H; [lia|]. cbn [wait_loop]. unfold waitpid.
  destruct (take_ended cs) as [[p cs']|] eqn:E.
  - destruct (take_some _ _ _ E) as [H1 H2]. rewrite IH by lia. now rewrite H2.
  - rewrite (take_none cs E). destruct cs; reflexivity.
Qed.
Lemma handler_ok cs e : sig_chld_handler cs e = Ok (filter runs cs, match filter runs cs with [] => ECHILD | _ => e end).
Proof. apply wait_loop_ok. lia. Qed.
Lemma runs_on p ds cs : In (p, false) cs -> ~ In p ds -> In (p, false) (filter runs (end_kids ds cs)).
Proof.
  intros H Hn. apply filter_In. split; [|reflexivity]. unfold end_kids. apply in_map_iff. exists (p, false).
  split; [|exact H]. cbn [fst snd orb]. f_equal. destruct (existsb _ ds) eqn:E; [|reflexivity].
  apply existsb_exists in E. destruct E as (x & Hx & Ex). apply Nat.eqb_eq in Ex. congruence.
Qed.
Lemma calm p dss : forall cs e, In (p, false) cs -> (forall ds, In ds dss -> ~ In p ds) ->
  exists cs', delivered cs e dss = Ok (cs', e) /\ In (p, false) cs'.
Proof.
  induction dss as [|ds dss IH]; intros cs e Hp Hd; cbn [delivered]; [eauto|].
  rewrite handler_ok. cbn [bind fst snd]. pose proof (runs_on p ds cs Hp (Hd ds (or_introl eq_refl))) as HR.
  destruct (filter runs (end_kids ds cs)) as [|c l] eqn:E; [destruct HR|].
  apply IH; [exact HR|]. intros d H. apply Hd. now right.
Qed.
Lemma all_end ds cs : (forall c, In c cs -> In (fst c) ds) -> filter runs (end_kids ds cs) = [].
Proof.
  intros H. induction cs as [|[p b] cs IH]; [reflexivity|]. cbn [end_kids map filter].
  assert (Hp : existsb (Nat.eqb p) ds = true) by (apply existsb_exists; exists p; split; [apply (H (p, b)); now left|apply Nat.eqb_refl]).
  unfold runs at 1. cbn [fst snd]. rewrite Hp, Bool.orb_true_r. cbn [negb]. apply IH. intros c Hc. apply H. now right.
Qed.

(** ** The summary *)
Definition plain (w : list Z) : Prop := Forall (fun c => c <> 32 /\ c <> 10) w.
Ltac plain_lit := unfold plain; vm_compute; repeat (apply Forall_cons; [split; discriminate|]); apply Forall_nil.
Ltac each_word := lazymatch goal with |- Forall _ (_ :: _) => apply Forall_cons; [cbn [fst]; try (lazymatch goal with |- plain (_ ++ _)%list => fail | |- _ => plain_lit end)|each_word] | |- _ => apply Forall_nil end.
Lemma plain_d n : plain (fmt_d n).
Proof.
  unfold plain, fmt_d. destruct (Z.ltb_spec n 0).
  - constructor; [unfold MINUS; lia|]. destruct (fmt_u_ok (- n)) as [H1 _]; [lia|].
    eapply Forall_impl; [|exact H1]. intros c Hc. unfold isdigit in Hc. lia.
  - destruct (fmt_u_ok n) as [H1 _]; [lia|]. eapply Forall_impl; [|exact H1]. intros c Hc. unfold isdigit in Hc. lia.
Qed.
Lemma plain_words c : Forall (fun w => plain (fst w)) (words c).
Proof.
  unfold words. each_word.
  unfold plain. apply Forall_app. split; [plain_lit|]. apply Forall_app. split; [apply plain_d|].
  plain_lit.
Qed.
Lemma plain_shown c : Forall plain (shown c).
Proof.
  unfold shown. assert (H : Forall plain (set_words c)).
  { unfold set_words. apply Forall_forall. intros w Hw. apply in_map_iff in Hw. destruct Hw as (x & <- & Hx).
    apply filter_In in Hx. pose proof (plain_words c) as HW. rewrite Forall_forall in HW. apply HW, Hx. }
  destruct (set_words c); [|exact H]. apply Forall_cons; [plain_lit|apply Forall_nil].
Qed.
Lemma flat_filter (l : list (list Z * bool)) :
  flat_map (fun x : list Z * bool => if snd x then 32 :: fst x else []) l = flat_map (fun w => 32 :: w) (map fst (filter snd l)).
Proof.
  induction l as [|[w b] l IH]; [reflexivity|]. cbn [flat_map filter fst snd].
  destruct b; cbn [map fst flat_map app]; now rewrite IH.
Qed.
Lemma options_words c : options c = flat_map (fun w => 32 :: w) (set_words c).
Proof.
  unfold options, set_words, is_some. rewrite <- flat_filter. unfold words.
  rewrite (Z.ltb_antisym 0 (s_syslog c)), Bool.negb_involutive.
  replace (0 <? s_stamp c) with (negb (s_stamp c <=? 0)) by (now rewrite Z.leb_antisym, Bool.negb_involutive).
  cbn [flat_map fst snd]. rewrite app_nil_r. repeat f_equal.

Qed.
Lemma sum_filter (l : list (list Z * bool)) :
  (fold_right (fun (x : list Z * bool) n => (if snd x then 1 else 0) + n) 0 l =? 0) = match map fst (filter snd l) with [] => true | _ => false end.
Proof.
  assert (H : forall l : list (list Z * bool), 0 <= fold_right (fun (x : list Z * bool) n => (if snd x then 1 else 0) + n) 0 l).
  { induction l0 as [|[w b] l0 IH]; cbn [fold_right snd]; [lia|]. destruct b; lia. }
  induction l as [|[w b] l IH]; [reflexivity|]. cbn [fold_right filter snd]. destruct b; cbn [map]; [|exact IH].
  specialize (H l). apply Z.eqb_neq. lia.
Qed.
Lemma got_none c : (got_options c =? 0) = match set_words c with [] => true | _ => false end.
Proof.
  unfold set_words. rewrite <- sum_filter. f_equal. unfold got_options, words, is_some. cbn [fold_right snd].
  rewrite (Z.ltb_antisym 0 (s_syslog c)), Bool.negb_involutive.
  replace (0 <? s_stamp c) with (negb (s_stamp c <=? 0)) by (now rewrite Z.leb_antisym, Bool.negb_involutive).
  destruct (s_log c), (s_reset c); lia.
Qed.
Lemma count_filter l : List.length (filter (fun b : bool => b) l) = count_occ Bool.bool_dec l true.
Proof. induction l as [|[|] l IH]; cbn; auto. Qed.
Definition count_line (n : Z) : list Z := (zs "Monitoring " ++ fmt_d n ++ zs " console" ++ (if (n =? 1)%Z then [] else zs "s"))%list.
Lemma display_lines c : display_configuration c =
  ((zs "Configuration: " ++ s_name c) ++ 10 :: (zs "Options:" ++ flat_map (fun w => 32 :: w) (shown c)) ++ 10 ::
   count_line (Z.of_nat (consoles c)) ++ [10; 10])%list.
Proof.
  unfold display_configuration, consoles, count_line. rewrite count_filter, options_words, got_none. unfold shown.
  rewrite <- !app_assoc. do 3 f_equal. cbn [app]. destruct (set_words c) as [|w ws].
  - cbn [flat_map app]. rewrite <- ?app_assoc. reflexivity.
  - rewrite <- ?app_assoc. reflexivity.
Qed.
Lemma cut_inj {A} (x : A) a a' b b' : ~ In x a -> ~ In x a' -> (a ++ x :: b = a' ++ x :: b')%list -> a = a' /\ b = b'.
Proof.
  revert a'. induction a as [|y a IH]; intros [|y' a'] H H' E; cbn [app] in E.
  - injection E as <-. auto.
  - injection E as <- _. elim H'. now left.
  - injection E as -> _. elim H. now left.
  - injection E as <- E. destruct (IH a') as [-> ->]; auto.
    + intros K. apply H. now right.
    + intros K. apply H'. now right.
Qed.
Lemma flat_inj ws : forall ws', Forall plain ws -> Forall plain ws' ->
  flat_map (fun w => 32 :: w) ws = flat_map (fun w => 32 :: w) ws' -> ws = ws'.
Proof.
  assert (HH : forall l : list (list Z), flat_map (fun w => 32 :: w) l = [] \/ exists t, flat_map (fun w => 32 :: w) l = 32 :: t).
  { intros [|w l]; [now left|right]. cbn [flat_map app]. eauto. }
  assert (HN : forall w, plain w -> ~ In 32 w).
  { intros w Hw Hin. unfold plain in Hw. rewrite Forall_forall in Hw. destruct (Hw _ Hin). congruence. }
  induction ws as [|w ws IH]; intros [|w' ws'] F F' E; cbn [flat_map app] in E; try discriminate; [reflexivity|].
  injection E as E. inversion F; subst. inversion F'; subst.
  assert (K : w = w' /\ flat_map (fun w => 32 :: w) ws = flat_map (fun w => 32 :: w) ws').
  { destruct (HH ws) as [E1|[t E1]], (HH ws') as [E2|[t' E2]]; rewrite E1, E2 in E |- *.
    - rewrite !app_nil_r in E. auto.
    - rewrite app_nil_r in E. exfalso. apply (HN w); [assumption|]. rewrite E. apply in_or_app. right. now left.
    - rewrite app_nil_r in E. exfalso. apply (HN w'); [assumption|]. rewrite <- E. apply in_or_app. right. now left.
    - apply cut_inj in E; [|apply HN; assumption|apply HN; assumption]. destruct E as [-> ->]. auto. }
  destruct K as [-> K]. f_equal. now apply IH.
Qed.
Lemma fmt_d_inj a b : 0 <= a -> 0 <= b -> fmt_d a = fmt_d b -> a = b.
Proof.
  intros Ha Hb E. unfold fmt_d in E. destruct (Z.ltb_spec a 0), (Z.ltb_spec b 0); try lia.
  destruct (fmt_u_ok a Ha) as (_ & <- & _), (fmt_u_ok b Hb) as (_ & <- & _). now rewrite E.
Qed.
Lemma count_line_inj a b : 0 <= a -> 0 <= b -> count_line a = count_line b -> a = b.
Proof.
  intros Ha Hb E. unfold count_line in E. apply app_inv_head in E.
  change (zs " console") with (32 :: zs "console") in E. cbn [app] in E. apply cut_inj in E.
  - destruct E as [E _]. now apply fmt_d_inj.
  - intros H. pose proof (plain_d a) as P. unfold plain in P. rewrite Forall_forall in P. destruct (P _ H). congruence.
  - intros H. pose proof (plain_d b) as P. unfold plain in P. rewrite Forall_forall in P. destruct (P _ H). congruence.
Qed.
Lemma plain_no10 w : plain w -> ~ In 10 w.
Proof. intros P H. unfold plain in P. rewrite Forall_forall in P. destruct (P _ H). congruence. Qed.
Lemma flat_no10 ws : Forall plain ws -> ~ In 10 (flat_map (fun w => 32 :: w) ws).
Proof.
  intros F H. apply in_flat_map in H. destruct H as (w & Hw & [E|H]); [discriminate|].
  rewrite Forall_forall in F. exact (plain_no10 w (F w Hw) H).
Qed.
Lemma count_no10 n : ~ In 10 (count_line n).
Proof.
  unfold count_line. intros H. apply in_app_or in H. destruct H as [H|H]; [cbn in H; lia|].
  apply in_app_or in H. destruct H as [H|H]; [exact (plain_no10 _ (plain_d n) H)|].
  apply in_app_or in H. destruct H as [H|H]; [cbn in H; lia|]. destruct (n =? 1); cbn in H; lia.
Qed.
(** a word is shown when its option is set only *)
Lemma shown_in w c : w <> zs "None" -> (In w (shown c) <-> exists b, In (w, b) (words c) /\ b = true).
Proof.
  intros Hn. unfold shown.
  assert (HI : In w (set_words c) <-> exists b, In (w, b) (words c) /\ b = true).
  { unfold set_words. rewrite in_map_iff. split.
    - intros ([x b] & <- & H). apply filter_In in H. exists b. exact H.
    - intros (b & H & Hb). exists (w, b). split; [reflexivity|]. apply filter_In. auto. }
  destruct (set_words c); [|exact HI]. rewrite <- HI. cbn [In]. split; [intros [<-|[]]; now elim Hn|tauto].
Qed.
Ltac word_case H := unfold words in H; cbn [In] in H;
  repeat match type of H with _ \/ _ => destruct H as [H|H] end; try contradiction;
  try discriminate H; apply pair_equal_spec in H; destruct H as [_ H]; subst.
Lemma eq_true (a b : bool) : (a = true <-> b = true) -> a = b.
Proof. destruct a, b; intros [H1 H2]; auto; try (symmetry; auto). Qed.
