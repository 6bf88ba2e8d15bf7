(** C121: the IPMI engine. *)
From Coq Require Import String.
From Verif Require Import Base Chars Fmt EngModel EngSpec.
Local Open Scope Z_scope.
Local Open Scope list_scope.

Lemma same_eq a b : same a b = true <-> a = b.
Proof. unfold same. destruct (list_eq_dec Z.eq_dec a b); split; congruence. Qed.

Lemma configure_inv (P : econf -> Prop) l : P conf0 -> (forall c m, P c -> P (make c m)) -> P (configure l).
Proof.
  intros P0 PS. unfold configure. revert P0. generalize conf0. induction l as [|m l IH]; intros c H; cbn [fold_left]; auto.
Qed.

(** The daemon counts its IPMI consoles, whichever are refused. *)
Theorem C121_count l : e_num (configure l) = Z.of_nat (length (ipmi_consoles (configure l))).
Proof.
  apply configure_inv; [reflexivity|]. intros c m H. destruct m as [n h|n k]; cbn [make].
  - unfold create_ipmi_obj. destruct (existsb _ _); [exact H|]. unfold ipmi_consoles in *. cbn [e_objs e_num].
    rewrite filter_app, app_length. cbn [filter e_host length]. lia.
  - unfold ipmi_consoles in *. cbn [e_objs e_num]. rewrite filter_app, app_length. cbn [filter e_host length]. lia.
Qed.
Print Assumptions C121_count.

(** No two of them have the same host. *)
Theorem C121_hosts l : NoDup (map e_host (ipmi_consoles (configure l))).
Proof.
  apply configure_inv; [constructor|]. intros c m H. destruct m as [n h|n k]; cbn [make].
  - unfold create_ipmi_obj. destruct (existsb _ _) eqn:X; [exact H|]. unfold ipmi_consoles in *. cbn [e_objs].
    rewrite filter_app, map_app. cbn [filter e_host map]. apply NoDup_rev in H. rewrite <- (rev_involutive (_ ++ _)).
    apply NoDup_rev. rewrite rev_app_distr. cbn [rev app]. constructor; [|exact H]. intros IN. apply in_rev in IN.
    apply in_map_iff in IN. destruct IN as (o & E & IN). apply filter_In in IN. destruct IN as [IN _].
    assert (Y : existsb (clash n h) (e_objs c) = true); [|congruence].
    apply existsb_exists. exists o. split; [exact IN|]. unfold clash. rewrite E. rewrite (proj2 (same_eq h h) eq_refl). apply orb_true_r.
  - unfold ipmi_consoles in *. cbn [e_objs]. rewrite filter_app. cbn [filter e_host]. now rewrite app_nil_r.
Qed.
Print Assumptions C121_hosts.

(** One thread for every 128 consoles, begun or complete, up to the limit. *)
Theorem C121_threads tm ok n : 1 <= tm -> 0 < n ->
  exists t l r, ipmi_init tm ok false n = ((if ok then Start t else Failed t) :: l, r) /\
    1 <= t <= tm /\ (t < tm -> least n t) /\ 128 * (t - 1) < n /\
    (r = if ok then Some true else None) /\ (ok = true -> l = [Info (started_text t n)]).
Proof.
  intros T N. unfold ipmi_init. destruct (Z.leb_spec n 0); [lia|]. cbv zeta.
  set (t := Z.min (Z.quot (n - 1) CONSOLES_PER_THREAD + 1) tm). exists t.
  assert (Q : Z.quot (n - 1) CONSOLES_PER_THREAD = (n - 1) / 128) by (apply Z.quot_div_nonneg; unfold CONSOLES_PER_THREAD; lia).
  pose proof (Z.div_mod (n - 1) 128 ltac:(lia)). pose proof (Z.mod_pos_bound (n - 1) 128 ltac:(lia)).
  assert (0 <= (n - 1) / 128) by (apply Z.div_pos; lia).
  assert (F : 1 <= t <= tm /\ (t < tm -> least n t) /\ 128 * (t - 1) < n) by (unfold least, t; rewrite Q; lia).
  destruct F as (F1 & F2 & F3). destruct ok; do 2 eexists; (split; [reflexivity|]); (split; [exact F1|]); (split; [exact F2|]);
    (split; [exact F3|]); (split; [reflexivity|]); [intros _|discriminate].
  unfold started_text, plural, one_or_many. destruct (t =? 1), (n =? 1); cbn [app]; rewrite <- ?app_assoc; reflexivity.
Qed.
Print Assumptions C121_threads.

Lemma mid {A} (e : A) pre post a b : pre ++ e :: post = a ++ b -> ~ In e a -> exists p, pre = a ++ p /\ b = p ++ e :: post.
Proof.
  revert pre. induction a as [|x a IH]; intros pre H N; [exists pre; auto|]. destruct pre as [|y pre]; cbn in H.
  - injection H as -> _. exfalso. apply N. now left.
  - injection H as -> H. destruct (IH pre H) as (p & -> & ->); [intros X; apply N; now right|]. exists p. auto.
Qed.
Lemma not_sub c subs e : (forall k, e <> Submit k) -> ~ In e (submits c subs).
Proof. intros N IN. unfold submits in IN. apply in_map_iff in IN. destruct IN as (k & X & _). apply (N k). auto. Qed.

(** Every console that is submitted to the engine finds it running, in every run. *)
Theorem C121_running tm ok l fg subs pre k : at_ (life tm ok (configure l) fg subs) pre (Submit k) -> running pre.
Proof.
  intros (post & H). pose proof (C121_count l) as CN. set (c := configure l) in *. unfold life in H.
  assert (EX : ok = true /\ exists t x, ipmi_init tm ok false (e_num c) = ([Start t; Info x], Some true)).
  { assert (IN : In (Submit k) ((if fg then [] else [Told]) ++
      match ipmi_init tm ok false (e_num c) with (l0, None) => l0 | (l0, Some started) => l0 ++ submits c subs ++ ipmi_fini started ++ [Destroyed] end))
      by (rewrite H; apply in_or_app; right; now left).
    apply in_app_or in IN. destruct IN as [IN|IN]; [destruct fg; cbn in IN; intuition discriminate|].
    unfold ipmi_init in *. destruct (Z.leb_spec (e_num c) 0) as [Z0|Z0].
    - exfalso. cbn [app ipmi_fini] in IN. apply in_app_or in IN. destruct IN as [IN|IN]; [|cbn in IN; intuition discriminate].
      unfold submits in IN. apply in_map_iff in IN. destruct IN as (j & _ & IN). apply filter_In in IN. destruct IN as [_ IN].
      unfold ipmi_at in IN. destruct (nth_error (e_objs c) j) as [o|] eqn:NE; [|discriminate].
      assert (IO : In o (ipmi_consoles c)) by (apply filter_In; split; [exact (nth_error_In _ _ NE)|exact IN]).
      destruct (ipmi_consoles c); [exact IO|cbn [length] in CN; lia].
    - destruct ok; [|exfalso; cbn in IN; intuition discriminate]. split; [reflexivity|]. cbv zeta. eauto. }
  destruct EX as (-> & t & x & EI). rewrite EI in H. cbn [ipmi_fini] in H. symmetry in H. rewrite app_assoc in H.
  assert (N1 : ~ In (Submit k) ((if fg then [] else [Told]) ++ [Start t; Info x])).
  { intros IN. apply in_app_or in IN. destruct IN as [IN|IN]; [destruct fg|]; cbn in IN; intuition discriminate. }
  destruct (mid _ _ _ _ _ H N1) as (p & -> & E). clear H N1.
  assert (P : forall e, In e p -> In e (submits c subs)).
  { assert (G : forall (s : list eev) p, s ++ [Teardown] ++ [Destroyed] = p ++ Submit k :: post -> forall e, In e p -> In e s).
    { clear. induction s as [|y s IH]; intros p H e IN.
      - destruct p as [|a [|b [|? ?]]]; cbn in H; try discriminate; injection H; intros; subst; discriminate.
      - destruct p as [|a p]; [contradiction|]. cbn in H. injection H as -> H. destruct IN as [->|IN]; [now left|]. right. exact (IH p H e IN). }
    exact (G _ _ E). }
  split; [|split].
  - exists t. apply in_or_app. left. apply in_or_app. right. now left.
  - intros IN. apply in_app_or in IN. destruct IN as [IN|IN].
    + apply in_app_or in IN. destruct IN as [IN|IN]; [destruct fg|]; cbn in IN; intuition discriminate.
    + apply P in IN. revert IN. apply not_sub. discriminate.
  - intros IN. apply in_app_or in IN. destruct IN as [IN|IN].
    + apply in_app_or in IN. destruct IN as [IN|IN]; [destruct fg|]; cbn in IN; intuition discriminate.
    + apply P in IN. revert IN. apply not_sub. discriminate.
Qed.
Print Assumptions C121_running.

(** A daemon that stops has stopped the engine, if it was started, before it releases the
    consoles that the engine's threads use; without IPMI consoles it never has one. *)
Theorem C121_stopped tm ok l fg subs pre : at_ (life tm ok (configure l) fg subs) pre Destroyed ->
  (forall t, In (Start t) pre -> In Teardown pre) /\
  (ipmi_consoles (configure l) = [] -> forall t, ~ In (Start t) pre /\ ~ In Teardown pre).
Proof.
  intros (post & H). pose proof (C121_count l) as CN. set (c := configure l) in *. unfold life, ipmi_init in H.
  assert (F : forall b, ~ In Destroyed (if b : bool then [] else [Told])) by (intros [|]; cbn; intuition discriminate).
  symmetry in H. destruct (Z.leb_spec (e_num c) 0) as [Z0|Z0].
  - cbn [app ipmi_fini] in H. rewrite app_assoc in H.
    assert (N1 : ~ In Destroyed ((if fg then [] else [Told]) ++ submits c subs)).
    { intros IN. apply in_app_or in IN. destruct IN as [IN|IN]; [exact (F _ IN)|]. revert IN. apply not_sub. discriminate. }
    destruct (mid _ _ _ _ _ H N1) as (p & -> & E). destruct p as [|? [|? ?]]; cbn in E; try discriminate. rewrite app_nil_r.
    assert (NS : forall t, ~ In (Start t) ((if fg then [] else [Told]) ++ submits c subs)).
    { intros t IN. apply in_app_or in IN. destruct IN as [IN|IN]; [destruct fg; cbn in IN; intuition discriminate|]. revert IN. apply not_sub. discriminate. }
    split; [intros t IN; now apply NS in IN|]. intros _ t. split; [apply NS|]. intros IN. apply in_app_or in IN.
    destruct IN as [IN|IN]; [destruct fg; cbn in IN; intuition discriminate|]. revert IN. apply not_sub. discriminate.
  - split; [|intros X; rewrite X in CN; cbn in CN; lia]. intros t _. cbv zeta in H. destruct ok.
    + cbn [ipmi_fini] in H. set (a := [Start _; Info _]) in *.
      replace ((if fg then [] else [Told]) ++ a ++ submits c subs ++ [Teardown] ++ [Destroyed]) with
        (((if fg then [] else [Told]) ++ a ++ submits c subs ++ [Teardown]) ++ [Destroyed]) in H by (rewrite <- !app_assoc; reflexivity).
      assert (N1 : ~ In Destroyed ((if fg then [] else [Told]) ++ a ++ submits c subs ++ [Teardown])).
      { intros IN. apply in_app_or in IN. destruct IN as [IN|IN]; [exact (F _ IN)|]. apply in_app_or in IN. destruct IN as [IN|IN]; [cbn in IN; intuition discriminate|].
        apply in_app_or in IN. destruct IN as [IN|IN]; [revert IN; apply not_sub; discriminate|cbn in IN; intuition discriminate]. }
      destruct (mid _ _ _ _ _ H N1) as (p & -> & _). apply in_or_app. left. apply in_or_app. right. apply in_or_app. right. apply in_or_app. right. now left.
    + exfalso. assert (IN : In Destroyed (pre ++ Destroyed :: post)) by (apply in_or_app; right; now left). rewrite H in IN.
      apply in_app_or in IN. destruct IN as [IN|IN]; [exact (F _ IN)|]. cbn in IN. intuition discriminate.
Qed.
Print Assumptions C121_stopped.

(** Two hundred consoles, one name and one host twice. *)
Example C121_example :
  let b n := [98; n] in
  let l := MOther [97] true :: MIpmi [97] (b 0) :: map (fun n => MIpmi [99; Z.of_nat n] (b (Z.of_nat n))) (seq 0 200) ++ [MIpmi [100] (b 7)] in
  e_num (configure l) = 200 /\
  life 32 true (configure l) false [0; 1; 200; 201]%nat =
    [Told; Start 2; Info (zs "IPMI SOL engine started with 2 threads for 200 consoles"); Submit 1; Submit 200; Teardown; Destroyed].
Proof. vm_compute. auto. Qed.

(** A daemon whose engine cannot be started ends after it has reported success. *)
Theorem C121_told_refuted tm l subs : 0 < e_num (configure l) ->
  exists t, life tm false (configure l) false subs = [Told; Failed t].
Proof. intros N. unfold life, ipmi_init. destruct (Z.leb_spec (e_num (configure l)) 0); [lia|]. eexists. reflexivity. Qed.
Print Assumptions C121_told_refuted.
