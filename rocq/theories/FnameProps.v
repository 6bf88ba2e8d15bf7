(** Theorems about the expansion of conversion specifiers (C42) and the names of
    console log files (C43). *)
From Coq Require Import String.
From Verif Require Import Base BaseProof Chars Fmt LexModel StrModel FnameModel FnameSpec FnameProof.
Local Open Scope nat_scope.

(** Every format that does not end inside a specifier is expanded exactly, or -1 is
    returned, when the expansion and its terminator do not fit.  In both cases the
    buffer holds a terminated string, nothing behind its end changes, and nothing
    behind the terminator of the format ([post]) is read. *)
Theorem C42_expansion_partial iso obj pid tm buf size fmt post :
  obj_ok iso obj -> tm_ok tm -> 0 < size <= length buf -> chars_ok fmt -> dangling fmt = false ->
  exists t buf' r e, format_obj_string iso obj pid tm buf size (fmt ++ NUL :: post) = Ok (buf', r)
  /\ expands (option_map conv obj) pid tm fmt t
  /\ firstn (S (length e)) buf' = e ++ [NUL] /\ length e < size
  /\ length buf' = length buf /\ skipn size buf' = skipn size buf
  /\ (if length t <? size then r = Z.of_nat (length t) /\ e = t else r = (-1)%Z).
Proof. intros. apply format_ok; auto using chars_nz. Qed.

(** There is one expansion. *)
Theorem C42_unique con pid tm fmt t t' : expands con pid tm fmt t -> expands con pid tm fmt t' -> t = t'.
Proof. apply expands_det. Qed.

(** All slashes of the expansion are slashes of the format: neither the name of the
    console nor its device adds one. *)
Theorem C42_no_separator con pid tm fmt t :
  expands con pid tm fmt t -> (forall c, In c (zs "dgGHjmMsSuUVwWyY") -> ~ In 47%Z (tm c)) ->
  count_slashes t = slashes fmt.
Proof. intros X. apply (expands_slashes _ _ _ _ _ X). Qed.

(** A format that ends in a single '%' is read past its end, as soon as what comes
    before fits. *)
Theorem C42_dangling_refuted iso obj pid tm buf size fmt t :
  obj_ok iso obj -> tm_ok tm -> 0 < size <= length buf -> chars_ok fmt ->
  expands (option_map conv obj) pid tm fmt t -> length t < size ->
  format_obj_string iso obj pid tm buf size (cstr (fmt ++ [PERCENT])) = UB OutOfBounds.
Proof.
  intros O T S C X L.
  destruct (format_dangling iso obj pid tm buf size fmt [] O T S (chars_nz _ C) (expands_dangling _ _ _ _ _ X)) as (t' & X' & E & _).
  assert (t' = t) as -> by (eapply expands_det; eauto). unfold cstr. rewrite <- app_assoc. apply E; auto.
Qed.

(** When another string happens to follow in memory, it becomes part of the result. *)
Theorem C42_dangling_leaks_refuted iso obj pid tm buf size fmt t more t2 rest :
  obj_ok iso obj -> tm_ok tm -> 0 < size <= length buf -> chars_ok fmt -> chars_ok more ->
  expands (option_map conv obj) pid tm fmt t -> expands (option_map conv obj) pid tm more t2 ->
  length (t ++ PERCENT :: t2) < size ->
  exists buf', format_obj_string iso obj pid tm buf size (cstr (fmt ++ [PERCENT]) ++ cstr more ++ rest)
    = Ok (buf', Z.of_nat (length (t ++ PERCENT :: t2)))
  /\ firstn (S (length (t ++ PERCENT :: t2))) buf' = (t ++ PERCENT :: t2) ++ [NUL].
Proof.
  intros O T S C C2 X X2 L.
  destruct (format_dangling iso obj pid tm buf size fmt (cstr more ++ rest) O T S (chars_nz _ C) (expands_dangling _ _ _ _ _ X)) as (t' & X' & _ & E).
  assert (t' = t) as -> by (eapply expands_det; eauto).
  destruct (E more rest) as (t3 & X3 & G); auto using chars_nz.
  - unfold cstr. rewrite <- app_assoc. reflexivity.
  - eapply expands_dangling; eauto.
  - assert (t3 = t2) as -> by (eapply expands_det; eauto). destruct (G L) as (b & E1 & E2). exists b. split; auto.
    rewrite <- E1. f_equal. unfold cstr. rewrite <- !app_assoc. reflexivity.
Qed.

(** ** Log files *)

(** A console is rejected when the name of its log, as it expands now, is the name
    in the configuration of an earlier log, and only then. *)
Theorem C43_rejected_partial iso pid tm buf name con logs t :
  obj_ok iso (Some con) -> tm_ok tm -> chars_ok name -> 0 < length buf ->
  expands (Some (conv con)) pid tm name t -> length t < length buf ->
  create_logfile iso pid tm buf name con logs = Ok None <-> exists l, In l logs /\ l_name l = t.
Proof.
  intros O T C B X L. rewrite (create_eq iso pid tm buf name con logs t) by auto. rewrite <- clash_iff.
  destruct (existsb _ logs); split; congruence.
Qed.

Lemma configured_names iso pid logs : configured iso pid logs ->
  forall l, In l logs -> l_fmt l = (if existsb (Z.eqb PERCENT) (l_name l) then Some (l_name l) else None).
Proof.
  induction 1 as [|tm buf name con logs logs' H IH E]; [intros ? []|].
  unfold create_logfile in E. destruct (existsb (Z.eqb PERCENT) name) eqn:HP.
  - destruct (format_obj_string _ _ _ _ _ _ _) as [[b r]|]; [|discriminate]. cbn [bind] in E.
    destruct (if (0 <=? r)%Z then c_string b else Ok name) as [pn|]; [|discriminate]. cbn [bind] in E.
    destruct (existsb _ logs); [discriminate|]. injection E as <-. intros l I. apply in_app_or in I.
    destruct I as [I|[<-|[]]]; auto. cbn. rewrite HP. reflexivity.
  - cbn [bind] in E. destruct (existsb _ logs); [discriminate|]. injection E as <-. intros l I. apply in_app_or in I.
    destruct I as [I|[<-|[]]]; auto. cbn. rewrite HP. reflexivity.
Qed.

(** No two logs with names without specifiers have the same name. *)
Theorem C43_literal_partial iso pid logs i j a b :
  configured iso pid logs -> nth_error logs i = Some a -> nth_error logs j = Some b -> i < j ->
  l_fmt a = None -> l_fmt b = None -> l_name a <> l_name b.
Proof.
  intros H. revert i j a b. induction H as [|tm buf name con logs logs' H IH E]; intros i j a b I J L FA FB.
  { destruct i; discriminate. }
  assert (logs' = logs ++ [mkLog name (if existsb (Z.eqb PERCENT) name then Some name else None) con]
          /\ (existsb (Z.eqb PERCENT) name = false -> ~ exists l, In l logs /\ l_name l = name)) as [-> NC].
  { unfold create_logfile in E. destruct (existsb (Z.eqb PERCENT) name) eqn:HP.
    - destruct (format_obj_string _ _ _ _ _ _ _) as [[b0 r]|]; [|discriminate]. cbn [bind] in E.
      destruct (if (0 <=? r)%Z then c_string b0 else Ok name) as [pn|]; [|discriminate]. cbn [bind] in E.
      destruct (existsb _ logs); [discriminate|]. injection E as <-. split; [reflexivity|discriminate].
    - cbn [bind] in E. destruct (existsb _ logs) eqn:X; [discriminate|]. injection E as <-. split; [reflexivity|].
      intros _ N. apply clash_iff in N. congruence. }
  assert (j < length (logs ++ [mkLog name (if existsb (Z.eqb PERCENT) name then Some name else None) con])) as JL by (apply nth_error_Some; congruence).
  rewrite app_length in JL. cbn in JL. rewrite nth_error_app1 in I by lia.
  destruct (Nat.eq_dec j (length logs)) as [->|NE].
  - rewrite nth_error_app2, Nat.sub_diag in J by lia. injection J as <-. cbn in FB |- *.
    destruct (existsb (Z.eqb PERCENT) name); [discriminate|]. intros EQ. apply NC; auto. exists a. split; auto. eapply nth_error_In; eauto.
  - rewrite nth_error_app1 in J by lia. eapply IH; eauto.
Qed.

(** A log without specifiers opens the file it names; one with specifiers opens
    the expansion, at that moment, or nothing when it is too long. *)
Theorem C43_opened iso pid tm buf l t :
  obj_ok iso (Some (l_con l)) -> tm_ok tm -> 0 < length buf ->
  match l_fmt l with
  | None => open_logfile iso pid tm buf l = Ok (l, Some (l_name l))
  | Some f => chars_ok f -> expands (Some (conv (l_con l))) pid tm f t ->
      exists l', open_logfile iso pid tm buf l = Ok (l', if length t <? length buf then Some t else None)
  end.
Proof.
  intros O T B. destruct (l_fmt l) as [f|] eqn:LF.
  - intros C X. rewrite (open_eq iso pid tm buf l f t) by auto. destruct (length t <? length buf); eauto.
  - unfold open_logfile. rewrite LF. reflexivity.
Qed.

(** Two consoles that are given the same name with specifiers are both accepted,
    and log to the same file, whenever the name expands to the same text for both
    and this text is not the name itself. *)
Theorem C43_same_format_refuted iso pid tm buf name con1 con2 t :
  obj_ok iso (Some con1) -> obj_ok iso (Some con2) -> tm_ok tm -> chars_ok name -> 0 < length buf ->
  expands (Some (conv con1)) pid tm name t -> expands (Some (conv con2)) pid tm name t ->
  t <> name -> length t < length buf ->
  exists l1 l2 l1' l2',
    create_logfile iso pid tm buf name con1 [] = Ok (Some [l1])
    /\ create_logfile iso pid tm buf name con2 [l1] = Ok (Some [l1; l2])
    /\ l_con l1 = con1 /\ l_con l2 = con2
    /\ open_logfile iso pid tm buf l1 = Ok (l1', Some t)
    /\ open_logfile iso pid tm buf l2 = Ok (l2', Some t).
Proof.
  intros O1 O2 T C B X1 X2 NE L.
  assert (existsb (Z.eqb PERCENT) name = true) as HP.
  { destruct (existsb (Z.eqb PERCENT) name) eqn:HP; auto. exfalso. apply NE. eapply expands_det; [exact X1|].
    apply expands_plain. intros I. apply has_percent in I. congruence. }
  exists (mkLog name (Some name) con1), (mkLog name (Some name) con2), (mkLog t (Some name) con1), (mkLog t (Some name) con2).
  split; [rewrite (create_eq iso pid tm buf name con1 [] t) by auto; rewrite HP; reflexivity|].
  split.
  { rewrite (create_eq iso pid tm buf name con2 _ t) by auto. rewrite HP. cbn [existsb l_name].
    destruct (Z.eqb_spec (strcmp name t) 0) as [E|]; [apply strcmp_eq in E; congruence|]. reflexivity. }
  split; [reflexivity|]. split; [reflexivity|].
  split.
  - rewrite (open_eq iso pid tm buf (mkLog name (Some name) con1) name t) by auto. destruct (Nat.ltb_spec (length t) (length buf)); [|lia]. reflexivity.
  - rewrite (open_eq iso pid tm buf (mkLog name (Some name) con2) name t) by auto. destruct (Nat.ltb_spec (length t) (length buf)); [|lia]. reflexivity.
Qed.

(** ** Examples *)
Definition ex_tm (c : Z) : list Z := zs "2026".
Definition ex_con (n : string) : conobj := mkObj (zs n) (DFile (zs "/dev/ttyS0")).
Definition line : list Z := repeat 0%Z 1024.

Lemma ex_tm_ok : tm_ok ex_tm.
Proof. intros c _. split; [discriminate|]. repeat constructor; discriminate || reflexivity. Qed.

Example C42_example : exists buf' r, format_obj_string false (Some (ex_con "node a/1")) 7 ex_tm line 1024
  (cstr (zs "/log/%N.%D.%Y.%P%%%q")) = Ok (buf', r)
  /\ c_string buf' = Ok (zs "/log/node_a_1.ttyS0.2026.7%%q").
Proof. eexists _, _. split; [vm_compute; reflexivity|]. vm_compute. reflexivity. Qed.

(** a name such as LOG="/log/all-%Y" meets the hypotheses of C43_same_format_refuted *)
Example C43_example : exists t, expands (Some (conv (ex_con "a"))) 7 ex_tm (zs "/log/all-%Y") t
  /\ expands (Some (conv (ex_con "b"))) 7 ex_tm (zs "/log/all-%Y") t /\ t <> zs "/log/all-%Y".
Proof.
  exists (zs "/log/all-2026").
  assert (forall n, expands (Some (conv (ex_con n))) 7 ex_tm (zs "/log/all-%Y") (zs "/log/all-2026")) as X.
  { intros n. cbn [zs]. do 9 (apply X_char; [discriminate|]).
    apply (X_spec _ _ _ 89%Z (zs "2026") [] []); [|constructor]. apply (T_time _ _ ex_tm). cbn. tauto. }
  split; [apply X|]. split; [apply X|]. discriminate.
Qed.

(** A console can also be rejected without need: "/log/%%N" names the file
    "/log/%N", which no one else uses. *)
Theorem C43_needless_refuted : exists logs l1',
  create_logfile false 7 ex_tm line (zs "/log/%N") (ex_con "a") [] = Ok (Some logs)
  /\ create_logfile false 7 ex_tm line (zs "/log/%%N") (ex_con "b") logs = Ok None
  /\ map (open_logfile false 7 ex_tm line) logs = [Ok (l1', Some (zs "/log/a"))].
Proof.
  eexists _, _. split; [vm_compute; reflexivity|]. split; [vm_compute; reflexivity|]. vm_compute. reflexivity.
Qed.

Print Assumptions C42_expansion_partial.
Print Assumptions C42_unique.
Print Assumptions C42_no_separator.
Print Assumptions C42_dangling_refuted.
Print Assumptions C42_dangling_leaks_refuted.
Print Assumptions C43_rejected_partial.
Print Assumptions C43_literal_partial.
Print Assumptions C43_opened.
Print Assumptions C43_same_format_refuted.
Print Assumptions C43_needless_refuted.
