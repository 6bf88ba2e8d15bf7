(** C62: the environment of commands. *)
From Coq Require Import String.
From Verif Require Import Base BaseProof Mem Chars HostModel HostSpec HostProof EnvModel EnvSpec EnvProof.
Local Open Scope nat_scope.
Local Open Scope list_scope.

(** Whatever the daemon's own environment, commands see exactly three fixed entries, then
    an entry for DEBUG and one for TZ if these are set; memory is never accessed out of
    bounds and no assertion fails.  (Without memory the daemon does not start.) *)
Theorem C62_environment : forall p stdpath env junk, 1 <= p -> chars_ok stdpath -> Forall chars_ok env ->
  exists debug tz,
    child_env p stdpath env (Some junk) = Ok ([zs "IFS= " ++ [9; 10]%Z; zs "PATH=" ++ stdpath; zs "TERM=dumb"] ++ debug ++ tz) /\
    ((exists v, value env (zs "DEBUG") v /\ debug = [zs "DEBUG=" ++ v]) \/ (~ set_ env (zs "DEBUG") /\ debug = [])) /\
    ((exists v, value env (zs "TZ") v /\ tz = [zs "TZ=" ++ v]) \/ (~ set_ env (zs "TZ") /\ tz = [])).
Proof.
  intros p stdpath env junk P CS CE.
  exists (match getenv env (zs "DEBUG") with Some v => [zs "DEBUG=" ++ v] | None => [] end), (match getenv env (zs "TZ") with Some v => [zs "TZ=" ++ v] | None => [] end).
  split; [|split].
  - rewrite child_ok by auto. unfold sane, env_restrict, kept_entries, env_preserve. cbn [flat_map]. rewrite app_nil_r. reflexivity.
  - destruct (getenv env (zs "DEBUG")) as [v|] eqn:G; [left; exists v; rewrite <- getenv_value; auto|right; rewrite <- getenv_none; auto].
  - destruct (getenv env (zs "TZ")) as [v|] eqn:G; [left; exists v; rewrite <- getenv_value; auto|right; rewrite <- getenv_none; auto].
Qed.
Lemma entry_split key w s : ~ In 61%Z key -> ~ In 61%Z s -> forall v, entry key v = s ++ 61%Z :: w -> key = s /\ v = w.
Proof.
  unfold entry. change (zs "=") with [61%Z]. revert s. induction key as [|k key IH]; intros s NK NS v H.
  - destruct s as [|c s]; cbn [app] in H; [injection H as ->; auto|]. injection H as <- _. destruct NS. left. reflexivity.
  - destruct s as [|c s]; cbn [app] in H; [injection H as -> _; destruct NK; left; reflexivity|]. injection H as -> H.
    destruct (IH s) with (v := v) as [-> ->]; auto; intros I; [apply NK|apply NS]; right; exact I.
Qed.
(** In terms of variables: nothing else is passed on, in particular nothing that controls
    the loader or a shell. *)
Theorem C62_variables : forall p stdpath env junk, 1 <= p -> chars_ok stdpath -> Forall chars_ok env ->
  exists e, child_env p stdpath env (Some junk) = Ok e /\
  forall key v, ~ In 61%Z key ->
    value e key v <->
    (key = zs "IFS" /\ v = [32; 9; 10]%Z) \/ (key = zs "PATH" /\ v = stdpath) \/ (key = zs "TERM" /\ v = zs "dumb") \/
    ((key = zs "DEBUG" \/ key = zs "TZ") /\ value env key v).
Proof.
  intros p stdpath env junk P CS CE. exists (sane stdpath env). split; [apply child_ok; auto|]. intros key v NK.
  assert (N : forall s, forallb (fun c => negb (c =? 61)%Z) s = true -> ~ In 61%Z s).
  { intros s H I. apply (proj1 (forallb_forall _ _) H) in I. discriminate I. }
  assert (SP : forall k w, forallb (fun c => negb (c =? 61)%Z) k = true -> (skip_prefix key (entry k w) = if list_eq_dec Z.eq_dec key k then Some w else None)).
  { intros k w NKK. destruct (list_eq_dec Z.eq_dec key k) as [->|NE]; [apply skip_entry|]. destruct (skip_prefix key (entry k w)) as [x|] eqn:S0; [|reflexivity].
    apply skip_some in S0. symmetry in S0. apply entry_split in S0; [destruct NE; tauto|auto|apply N; auto]. }
  rewrite <- !getenv_value. unfold sane.
  change (env_restrict stdpath) with [entry (zs "IFS") [32; 9; 10]%Z; entry (zs "PATH") stdpath; entry (zs "TERM") (zs "dumb")].
  unfold env_preserve, kept_entries. cbn [flat_map app getenv].
  rewrite !SP by reflexivity.
  assert (D : forall a b : list Z, list_eq_dec Z.eq_dec a b = list_eq_dec Z.eq_dec a b) by reflexivity.
  destruct (list_eq_dec Z.eq_dec key (zs "IFS")) as [->|N1].
  { split; [intros H; injection H as <-; auto|]. intros [[_ ->]|[[H _]|[[H _]|[[H|H] _]]]]; try discriminate H. reflexivity. }
  destruct (list_eq_dec Z.eq_dec key (zs "PATH")) as [->|N2].
  { split; [intros H; injection H as <-; auto|]. intros [[H _]|[[_ ->]|[[H _]|[[H|H] _]]]]; try discriminate H. reflexivity. }
  destruct (list_eq_dec Z.eq_dec key (zs "TERM")) as [->|N3].
  { split; [intros H; injection H as <-; auto|]. intros [[H _]|[[H _]|[[_ ->]|[[H|H] _]]]]; try discriminate H. reflexivity. }
  assert (SD : getenv (match getenv env (zs "DEBUG") with Some v => [entry (zs "DEBUG") v] | None => [] end ++ match getenv env (zs "TZ") with Some v => [entry (zs "TZ") v] | None => [] end ++ []) key
            = if list_eq_dec Z.eq_dec key (zs "DEBUG") then getenv env (zs "DEBUG") else if list_eq_dec Z.eq_dec key (zs "TZ") then getenv env (zs "TZ") else None).
  { destruct (getenv env (zs "DEBUG")) as [d|], (getenv env (zs "TZ")) as [t|]; cbn [app getenv]; rewrite ?SP by reflexivity;
      destruct (list_eq_dec Z.eq_dec key (zs "DEBUG")) as [->|]; try reflexivity; destruct (list_eq_dec Z.eq_dec key (zs "TZ")); reflexivity. }
  rewrite SD. destruct (list_eq_dec Z.eq_dec key (zs "DEBUG")) as [->|N4].
  { split; [auto 6|]. intros [[H _]|[[H _]|[[H _]|[_ H]]]]; try discriminate H. exact H. }
  destruct (list_eq_dec Z.eq_dec key (zs "TZ")) as [->|N5].
  { split; [auto 6|]. intros [[H _]|[[H _]|[[H _]|[_ H]]]]; try discriminate H. exact H. }
  split; [discriminate|]. intros [[H _]|[[H _]|[[H _]|[[H|H] _]]]]; contradiction.
Qed.

Definition ex_env : list (list Z) := map zs ["LD_PRELOAD=/tmp/x.so"; "TZ=UTC"; "DEBUGX=9"; "PATH=.:/tmp"; "TZ=CET"; "TZ"]%string.
Example C62_example : Forall chars_ok ex_env /\
  child_env 8 STDPATH ex_env (Some (fun _ => CB 85)) = Ok ([zs "IFS= " ++ [9; 10]%Z; zs "PATH=" ++ STDPATH; zs "TERM=dumb"; zs "TZ=UTC"]) /\
  value ex_env (zs "TZ") (zs "UTC").
Proof.
  split; [repeat constructor; discriminate|]. split; [vm_compute; reflexivity|]. apply getenv_value. reflexivity.
Qed.

Print Assumptions C62_environment.
Print Assumptions C62_variables.
