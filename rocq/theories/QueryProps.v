(** C54 and C63: which consoles a request selects, and in which order. *)
From Coq Require Import String Permutation.
From Verif Require Import Base Chars Fmt LexProof QueryModel QuerySpec QueryProof.
Local Open Scope Z_scope.

(** ** C63: the order of consoles *)

(** Names that share what precedes the trailing integer are ordered by its value. *)
Theorem C63_numeric sgn stem d1 d2 : stem_ok stem -> Forall digit d1 -> Forall digit d2 -> d1 <> [] -> d2 <> [] ->
  number d1 <= INT_MAX -> number d2 <= INT_MAX ->
  compare_objs sgn (stem ++ d1) (stem ++ d2) = Ok (number d1 - number d2).
Proof. apply compare_numeric. Qed.

(** All others are ordered by their characters. *)
Theorem C63_plain sgn a b : unnumbered a \/ unnumbered b -> compare_objs sgn a b = Ok (lex sgn a b).
Proof. apply compare_plain. Qed.
Theorem C63_stems sgn s1 d1 s2 d2 : stem_ok s1 -> stem_ok s2 -> Forall digit d1 -> Forall digit d2 ->
  s1 <> s2 -> compare_objs sgn (s1 ++ d1) (s2 ++ d2) = Ok (lex sgn (s1 ++ d1) (s2 ++ d2)).
Proof. apply compare_stems. Qed.

(** Exchanging the names changes the sign, whatever the names. *)
Theorem C63_antisymmetric sgn a b z : compare_objs sgn a b = Ok z -> compare_objs sgn b a = Ok (- z).
Proof. apply compare_anti. Qed.

(** For names whose only digits are a trailing number of the size of an int, the
    comparison always ends, and it is a total preorder. *)
Theorem C63_preorder_partial sgn a b c : simple a -> simple b -> simple c ->
  exists x y z, compare_objs sgn a b = Ok x /\ compare_objs sgn b c = Ok y /\ compare_objs sgn a c = Ok z /\
    (x <= 0 -> y <= 0 -> z <= 0) /\ (x < 0 -> y <= 0 -> z < 0).
Proof.
  intros A B C. destruct (simple_cmp sgn a b A B) as (x & EX & SX). destruct (simple_cmp sgn b c B C) as (y & EY & SY).
  destruct (simple_cmp sgn a c A C) as (z & EZ & SZ). exists x, y, z. repeat (split; auto).
  - intros X Y. pose proof (kcmp_trans sgn a b c) as T. pose proof (sgn3 x). pose proof (sgn3 y). pose proof (sgn3 z). lia.
  - intros X Y. pose proof (kcmp_trans sgn b c a) as T. pose proof (kcmp_anti sgn a c). pose proof (kcmp_anti sgn a b).
    pose proof (sgn3 x). pose proof (sgn3 y). pose proof (sgn3 z). lia.
Qed.

(** In general it is not an order at all: three names that are each before the next in a circle. *)
Theorem C63_cycle_refuted : forall sgn,
  (exists z, compare_objs sgn (zs "foo2") (zs "foo10") = Ok z /\ z < 0) /\
  (exists z, compare_objs sgn (zs "foo10") (zs "foo1x") = Ok z /\ z < 0) /\
  (exists z, compare_objs sgn (zs "foo1x") (zs "foo2") = Ok z /\ z < 0).
Proof. intros []; repeat split; eexists; (split; [vm_compute; reflexivity|lia]). Qed.

(** Different names may compare equal. *)
Theorem C63_equal_refuted : exists a b, a <> b /\ simple a /\ simple b /\ forall sgn, compare_objs sgn a b = Ok 0.
Proof.
  exists (zs "foo1"), (zs "foo01"). split; [discriminate|].
  assert (G : Forall (fun c => char_ok c /\ ~ digit c) (zs "foo")) by (cbn; repeat constructor; unfold digit; lia).
  repeat split.
  - exists (zs "foo"), (zs "1"). repeat split; auto; [cbn; repeat constructor; unfold digit; lia|vm_compute; discriminate].
  - exists (zs "foo"), (zs "01"). repeat split; auto; [cbn; repeat constructor; unfold digit; lia|vm_compute; discriminate].
Qed.

(** A trailing number larger than an int is converted with atoi(), which is then undefined. *)
Theorem C63_overflow_refuted : forall sgn, exists k, compare_objs sgn (zs "n2147483648") (zs "n1") = UB k.
Proof. intros []; eexists; vm_compute; reflexivity. Qed.

Example C63_example : simple (zs "node") /\ simple (zs "node2") /\ simple (zs "node10") /\ stem_ok (zs "n1e-") /\
  compare_objs true (zs "node2") (zs "node10") = Ok (-8) /\ compare_objs true (zs "node") (zs "node2") = Ok (-50).
Proof.
  assert (G : Forall (fun c => char_ok c /\ ~ digit c) (zs "node")) by (cbn; repeat constructor; unfold digit; lia).
  repeat split.
  - exists (zs "node"), []. repeat split; auto. vm_compute; discriminate.
  - exists (zs "node"), (zs "2"). repeat split; auto; [cbn; repeat constructor; unfold digit; lia|vm_compute; discriminate].
  - exists (zs "node"), (zs "10"). repeat split; auto; [cbn; repeat constructor; unfold digit; lia|vm_compute; discriminate].
  - right. exists (zs "n1e"), 45. split; [reflexivity|unfold digit; lia].
Qed.

(** ** C54: the consoles selected by a request *)

Section C54.
Variables (sgn : bool) (isc : nat -> bool) (nm : nat -> list Z) (fnm : list Z -> list Z -> bool).
Variable (regex : list Z -> option (list Z -> option (nat * nat))).

(** With shell patterns: exactly the consoles whose names match one of them, each once;
    a broadcast to exactly one console becomes an ordinary session. *)
Theorem C54_glob query bcast objs pats r b ok : pats <> [] ->
  query_consoles sgn isc nm fnm regex false query bcast objs pats = Ok (r, b, ok) ->
  ok = true /\ NoDup r /\ (forall o, In o r <-> selected isc nm (fun p n => fnm p n = true) objs pats o) /\
  (b = true <-> bcast = true /\ length r <> 1%nat).
Proof.
  intros NE. unfold query_consoles. destruct pats as [|p ps]; [congruence|]. set (pats := p :: ps). cbv beta iota.
  destruct (sort_r _ _ _) as [s|] eqn:Q; [|discriminate]. cbn [bind]. intros E. injection E; intros <- <- <-. clear E.
  apply sort_r_perm in Q. cbn [app] in Q.
  assert (V : via_globbing isc nm fnm objs pats = fold_left (fun ms p => glob_one isc nm fnm p objs ms) pats []) by reflexivity.
  rewrite V in Q. split; auto. split; [|split].
  - eapply Permutation_NoDup; [exact Q|]. apply via_glob_nodup. constructor.
  - intros o. pose proof (via_glob_in isc nm fnm objs pats [] o) as W. split.
    + intros I. apply (Permutation_in _ (Permutation_sym Q)) in I. apply W in I. destruct I as [[]|I]; auto.
    + intros S. eapply Permutation_in; [exact Q|]. apply W. auto.
  - destruct (Nat.eqb_spec (length s) 1); [split; [discriminate|tauto]|tauto].
Qed.

(** Without any pattern: nothing, except that a query then means every console. *)
Theorem C54_none rx bcast objs : query_consoles sgn isc nm fnm regex rx false bcast objs [] = Ok ([], bcast, true).
Proof. reflexivity. Qed.
Theorem C54_all bcast objs r b ok : (forall n, fnm (zs "*") n = true) ->
  query_consoles sgn isc nm fnm regex false true bcast objs [] = Ok (r, b, ok) ->
  ok = true /\ NoDup r /\ forall o, In o r <-> In o objs /\ isc o = true.
Proof.
  intros ST E. assert (E2 : query_consoles sgn isc nm fnm regex false true bcast objs [zs "*"] = Ok (r, b, ok)) by exact E.
  apply C54_glob in E2; [|discriminate]. destruct E2 as (A & B & C & _). split; [exact A|split; [exact B|]].
  intros o. rewrite C. unfold selected. split; [tauto|]. intros [X Y]. repeat split; auto. exists (zs "*"). split; [left; auto|auto].
Qed.

(** With regular expressions: exactly the consoles whose whole name matches one of
    them, provided each is acceptable on its own to a POSIX engine. *)
Theorem C54_regex_partial query bcast objs pats mt r b ok : pats <> [] -> inside mt -> posix regex mt pats ->
  (length (joined pats) < MAX_SOCK_LINE)%nat ->
  query_consoles sgn isc nm fnm regex true query bcast objs pats = Ok (r, b, ok) ->
  ok = true /\ (NoDup objs -> NoDup r) /\
  (forall o, In o r <-> selected isc nm (fun p n => mt p n 0%nat (length n)) objs pats o) /\
  (b = true <-> bcast = true /\ length r <> 1%nat).
Proof.
  intros NE I P L. destruct (regex_in isc nm regex mt objs pats I P NE L) as (l & V & N & S).
  unfold query_consoles. destruct pats as [|p ps]; [congruence|]. rewrite V. cbv beta iota.
  destruct (sort_r _ _ _) as [s|] eqn:Q; [|discriminate]. cbn [bind]. intros E. injection E; intros <- <- <-. clear E.
  apply sort_r_perm in Q. cbn [app] in Q. split; auto. split; [|split].
  - intros D. eapply Permutation_NoDup; [exact Q|]. auto.
  - intros o. rewrite <- S. split; apply Permutation_in; auto using Permutation_sym.
  - destruct (Nat.eqb_spec (length s) 1); [split; [discriminate|tauto]|tauto].
Qed.

(** A combination of patterns that is not acceptable selects nothing and is an error. *)
Theorem C54_regex_rejected query bcast objs pats : pats <> [] -> (length (joined pats) < MAX_SOCK_LINE)%nat ->
  regex (joined pats) = None ->
  query_consoles sgn isc nm fnm regex true query bcast objs pats = Ok ([], bcast, false).
Proof.
  intros NE L R. unfold query_consoles, via_regex. destruct pats as [|p ps]; [congruence|]. cbv zeta beta iota.
  rewrite firstn_all2 by lia. rewrite R. reflexivity.
Qed.

(** The answer is always given, and in order, if all console names are simple. *)
Theorem C54_sorted rx query bcast objs pats : (forall o, In o objs -> isc o = true -> simple (nm o)) ->
  exists r b ok, query_consoles sgn isc nm fnm regex rx query bcast objs pats = Ok (r, b, ok) /\ ordered sgn nm r.
Proof.
  intros F. unfold query_consoles.
  assert (G : forall m (ok : bool), Forall (fun o => simple (nm o)) m -> exists r b ok',
    (do sorted <- sort_r (fun a b => compare_objs sgn (nm a) (nm b)) [] m; Ok (sorted, if (length sorted =? 1)%nat then false else bcast, ok)) = Ok (r, b, ok') /\ ordered sgn nm r).
  { intros m ok FM. destruct (sort_simple sgn nm m FM) as (r & -> & _ & O). cbn [bind]. eauto. }
  assert (GG : Forall (fun o => simple (nm o)) (via_globbing isc nm fnm objs pats)).
  { apply Forall_forall. intros o I. unfold via_globbing in I. cbv zeta in I. apply via_glob_in in I.
    destruct I as [[]|(A & B & _)]. auto. }
  assert (GR : forall l, via_regex isc nm regex objs pats = Some l -> Forall (fun o => simple (nm o)) l).
  { intros l V. unfold via_regex in V. cbv zeta in V. destruct (regex _) as [f|]; [|discriminate]. injection V; intros <-.
    apply Forall_forall. intros o I. apply filter_In in I. destruct I as [I J]. apply andb_true_iff in J. apply F; tauto. }
  assert (M : exists r b ok, (let '(matches, ok) := if rx then match via_regex isc nm regex objs pats with Some m => (m, true) | None => ([], false) end else (via_globbing isc nm fnm objs pats, true) in
     do sorted <- sort_r (fun a b => compare_objs sgn (nm a) (nm b)) [] matches; Ok (sorted, if (length sorted =? 1)%nat then false else bcast, ok)) = Ok (r, b, ok) /\ ordered sgn nm r).
  { destruct rx; [|apply G; auto]. destruct (via_regex isc nm regex objs pats) as [l|]; apply G; auto. }
  destruct pats as [|p ps]; [|exact M]. destruct query; [exact M|]. exists [], bcast, true. split; auto.
  intros l1 a l2 b l3 E. destruct l1; discriminate.
Qed.
End C54.

(** Joining the patterns by '|' makes a request with two unacceptable patterns succeed. *)
Theorem C54_regex_split_refuted : exists regex nm pats r,
  (forall p, In p pats -> regex p = None) /\
  (exists rx, regex (zs "(a|b)") = Some rx /\ rx (zs "a") = Some (0%nat, 1%nat)) /\
  query_consoles true (fun _ => true) nm (fun _ _ => false) regex true false false [7%nat] pats = Ok (r, false, true) /\ r <> [].
Proof.
  exists (fun p => if list_eqb p (zs "(a|b)") then Some (fun s => if list_eqb s (zs "a") || list_eqb s (zs "b") then Some (0%nat, 1%nat) else None) else None).
  exists (fun _ => zs "a"), [zs "(a"; zs "b)"], [7%nat]. split; [|split; [|split]].
  - intros p [<-|[<-|[]]]; reflexivity.
  - eexists. split; reflexivity.
  - vm_compute. reflexivity.
  - discriminate.
Qed.

(** Three consoles and a log; two patterns that overlap. *)
Definition ex_name (o : nat) : list Z := nth o [zs "log"; zs "n10"; zs "n2"; zs "m"] [].
Definition ex_fnm (p n : list Z) : bool := list_eqb p (zs "*") || list_eqb p n || (list_eqb p (zs "n*") && (nth 0 n 0 =? 110)).
Example C54_example :
  query_consoles true (fun o => negb (o =? 0)%nat) ex_name ex_fnm (fun _ => None) false true true [0; 1; 2; 3]%nat [zs "n10"; zs "n*"] = Ok ([2; 1]%nat, true, true) /\
  query_consoles true (fun o => negb (o =? 0)%nat) ex_name ex_fnm (fun _ => None) false true true [0; 1; 2; 3]%nat [zs "m"] = Ok ([3]%nat, false, true) /\
  query_consoles true (fun o => negb (o =? 0)%nat) ex_name ex_fnm (fun _ => None) false true true [0; 1; 2; 3]%nat [] = Ok ([3; 2; 1]%nat, true, true).
Proof. vm_compute. auto. Qed.

(** An engine for literal patterns, and a request that meets the hypotheses. *)
Definition ex_mt (p s : list Z) (a b : nat) : Prop := p = s /\ a = 0%nat /\ b = length s.
Definition ex_regex (p : list Z) : option (list Z -> option (nat * nat)) :=
  if list_eqb p (zs "n10|m") then Some (fun s => if list_eqb s (zs "n10") then Some (0, 3)%nat else if list_eqb s (zs "m") then Some (0, 1)%nat else None) else None.
Lemma leqb a b : list_eqb a b = true -> a = b.
Proof. apply list_eqb_eq. Qed.
Example C54_regex_example : inside ex_mt /\ posix ex_regex ex_mt [zs "n10"; zs "m"] /\
  query_consoles true (fun o => negb (o =? 0)%nat) ex_name ex_fnm ex_regex true false true [0; 1; 2; 3]%nat [zs "n10"; zs "m"] = Ok ([3; 1]%nat, true, true).
Proof.
  split; [|split].
  - intros p s a b (_ & -> & ->). lia.
  - eexists. split; [reflexivity|]. intros s. cbv zeta.
    destruct (list_eqb s (zs "n10")) eqn:A; [|destruct (list_eqb s (zs "m")) eqn:B].
    + apply leqb in A. subst s. split; [exists (zs "n10"); unfold ex_mt; cbn [In]; auto|].
      intros a b (p & _ & _ & -> & ->). right. split; auto.
    + apply leqb in B. subst s. split; [exists (zs "m"); unfold ex_mt; cbn [In]; auto|].
      intros a b (p & _ & _ & -> & ->). right. split; auto.
    + rewrite A. intros a b (p & I & -> & _). destruct I as [<-|[<-|[]]]; [vm_compute in A|vm_compute in B]; discriminate.
  - vm_compute. reflexivity.
Qed.

Print Assumptions C63_numeric.
Print Assumptions C63_plain.
Print Assumptions C63_stems.
Print Assumptions C63_antisymmetric.
Print Assumptions C63_preorder_partial.
Print Assumptions C63_cycle_refuted.
Print Assumptions C63_equal_refuted.
Print Assumptions C63_overflow_refuted.
Print Assumptions C54_glob.
Print Assumptions C54_none.
Print Assumptions C54_all.
Print Assumptions C54_regex_partial.
Print Assumptions C54_regex_rejected.
Print Assumptions C54_sorted.
Print Assumptions C54_regex_split_refuted.
