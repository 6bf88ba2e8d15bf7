(** C23, C49: the file utilities. *)
From Coq Require Import String.
From Verif Require Import Base BaseProof Mem Chars StrModel StrSpec StrProof FileModel FileSpec FileProof.
Local Open Scope Z_scope.

(** ** C23 *)
(** For every stream of bytes, every way the kernel interrupts the calls, and every buffer
    size: without a read error the first line (or as much as fits) is stored with a
    terminator, exactly its bytes are consumed, its length is returned; nothing else is
    written.  At the end of the stream 0 is returned. *)
Theorem C23_read_line : forall sched stream buf maxlen,
  (0 < maxlen <= List.length buf)%nat -> ~ In Fail sched ->
  let line := firstn (maxlen - 1) (first_line stream) in
  exists buf' s1, read_line sched stream buf maxlen =
      Ok (buf', Z.of_nat (List.length line), s1, skipn (List.length line) stream) /\
    suffix s1 sched /\
    (stream = [] -> (1 < maxlen)%nat -> buf' = buf) /\
    (stream <> [] \/ maxlen = 1%nat -> buf' = line ++ NUL :: skipn (S (List.length line)) buf).
Proof.
  intros sched stream buf maxlen L NF line.
  destruct (read_line_ok sched stream buf maxlen ltac:(lia) ltac:(lia)) as (s1 & S1 & [H|[H _]]); [|tauto].
  destruct H as (buf' & E & LB & H). exists buf', s1. split; [exact E|]. split; auto. fold line in H.
  destruct H as [(H1 & H2 & H3)|(j & H1 & H2)].
  - split; auto. intros [X|X]; [congruence|lia].
  - split; [|intros _; congruence]. intros -> M.
    unfold read_line in E. destruct (Nat.eqb_spec maxlen 0); [lia|].
    destruct (read_line_loop_ok (S (List.length sched + maxlen)) sched [] [] buf (maxlen - 1)) as (s2 & S2 & R).
    { cbn. lia. }
    { cbn. lia. }
    { cbn. lia. }
    rewrite firstn_nil in R. cbn [List.length app firstn skipn] in R.
    destruct (Nat.ltb_spec 0 (maxlen - 1)); [|lia]. destruct R as [R|[R _]]; [|tauto]. cbn [Nat.eqb andb] in R.
    rewrite R in E. cbn [bind] in E. congruence.
Qed.

(** For a buffer of any size, 0 included: a read error makes it return -1, and nothing else
    does; then only bytes of that line have been consumed.  Nothing outside the buffer is
    written. *)
Theorem C23_read_line_error : forall sched stream buf maxlen,
  (maxlen <= List.length buf)%nat ->
  let line := firstn (maxlen - 1) (first_line stream) in
  exists buf' rv s1 k, read_line sched stream buf maxlen = Ok (buf', rv, s1, skipn k stream) /\
    List.length buf' = List.length buf /\ skipn maxlen buf' = skipn maxlen buf /\ (k <= List.length line)%nat /\
    (rv = Z.of_nat k /\ k = List.length line \/ rv = -1 /\ In Fail sched).
Proof.
  intros sched stream buf maxlen L line. destruct (Nat.eq_dec maxlen 0) as [->|N].
  { exists buf, 0, sched, 0%nat. split; [reflexivity|]. split; [reflexivity|]. split; [reflexivity|]. split; [cbn; lia|]. left. split; reflexivity. }
  destruct (read_line_ok sched stream buf maxlen ltac:(lia) ltac:(lia)) as (s1 & S1 & [H|(F & k & b & K & LB & SK & E)]).
  - destruct H as (buf' & E & LB & H). fold line in E, H. eexists buf', _, s1, (List.length line). split; [exact E|]. split; [exact LB|].
    split; [|auto]. destruct H as [(_ & _ & ->)|(j & -> & ->)]; [reflexivity|].
    assert (LL : (List.length line <= maxlen - 1)%nat) by (unfold line; apply firstn_le_length).
    rewrite skipn_app, (@skipn_all2 _ maxlen line) by lia. cbn [app].
    replace (maxlen - List.length line)%nat with (S (maxlen - List.length line - 1)) by lia. rewrite skipn_cons.
    rewrite skipn_skipn_add. f_equal. lia.
  - exists b, (-1), s1, k. auto 8.
Qed.

Theorem C23_read_n : forall sched stream buf n, (n <= List.length buf)%nat -> 
  let d := firstn n stream in
  exists buf' rv s1 k, read_n sched stream buf n = Ok (buf', rv, s1, skipn k stream) /\ suffix s1 sched /\
    buf' = firstn k d ++ skipn k buf /\ (k <= List.length d)%nat /\
    (rv = Z.of_nat (List.length d) /\ k = List.length d \/ rv = -1 /\ In Fail sched).
Proof.
  intros sched stream buf n L d. unfold read_n.
  destruct (read_n_loop_ok (S (List.length sched + n)) sched stream [] buf n ltac:(lia) L) as (s1 & S1 & H).
  cbn [app List.length] in H. fold d in H. destruct H as [H|(F & k & K & H)].
  - rewrite H. cbn [bind]. eexists _, _, s1, (List.length d). split; [reflexivity|]. split; auto. rewrite firstn_all.
    split; auto. split; auto. left. split; auto. f_equal. assert ((List.length d <= n)%nat) by (unfold d; rewrite firstn_length; lia). lia.
  - rewrite H. cbn [bind]. eexists _, _, s1, k. split; [reflexivity|]. auto 7.
Qed.

Theorem C23_write_n : forall sched out buf n, (n <= List.length buf)%nat ->
  exists out' rv s1, write_n sched out buf n = Ok (out', rv, s1) /\ suffix s1 sched /\
    (rv = Z.of_nat n /\ out' = out ++ firstn n buf \/
     rv = -1 /\ In Fail sched /\ exists k, (k < n)%nat /\ out' = out ++ firstn k buf).
Proof.
  intros sched out buf n L. unfold write_n.
  destruct (write_n_loop_ok (S (S (List.length sched))) sched out buf [] buf 0 n ltac:(lia) eq_refl eq_refl L) as (s1 & S1 & [H|(F & k & K & H)]);
    rewrite H; cbn [bind]; eexists _, _, s1; (split; [reflexivity|]); (split; [auto|]); [left; auto|right; eauto 6].
Qed.

Example C23_example :
  read_line [Intr; Chunk 1; Intr; Chunk 9] (zs "ab" ++ [LF] ++ zs "cd") (repeat 7 6) 6 =
    Ok (zs "ab" ++ [LF; NUL; 7; 7], 3, [], zs "cd") /\
  read_line [] (zs "abcdef" ++ [LF]) (repeat 7 4) 4 = Ok (zs "abc" ++ [NUL], 3, [], zs "def" ++ [LF]) /\
  write_n [Chunk 2; Intr; Chunk 0] [] (zs "hello") 5 = Ok (zs "hello", 5, []).
Proof. repeat split; vm_compute; reflexivity. Qed.

(** ** C49 *)
(** For every path and every destination size. *)
Theorem C49_dirname : forall s path dst dstlen,
  holds s path -> (dstlen <= List.length dst)%nat ->
  exists o, get_dir_name s dst dstlen = Ok o /\
    ((List.length (dirname path) < dstlen)%nat ->
       exists dst' j, o = Some dst' /\ dst' = dirname path ++ NUL :: j /\ List.length dst' = List.length dst /\
         skipn dstlen dst' = skipn dstlen dst) /\
    ((dstlen <= List.length (dirname path))%nat -> o = None).
Proof.
  intros s path dst dstlen H L. destruct (get_dir_name_ok s path dst dstlen H L) as (o & E & R). exists o. split; auto.
  destruct (Nat.ltb_spec (List.length (dirname path)) dstlen); split; intros B; try lia; auto.
  destruct R as (d & E1 & (j & E2) & E3 & E4). eauto 6.
Qed.
Example C49_dirname_examples :
  List.map (fun p => dirname (zs p)) ["/a/b"; "/a//b//"; "/"; "///"; "//a"; "a"; "a/"; ""; "a/b/c"; "."]%string =
  List.map zs ["/a"; "/a"; "/"; "/"; "/"; "."; "."; "."; "a/b"; "."]%string.
Proof. vm_compute. reflexivity. Qed.

(** For every file system, every pattern of refusals by the kernel, every path: 0 is
    returned exactly if no ancestor is a file and none that is missing is refused, and then
    every ancestor and the path itself are directories; nothing that existed is changed,
    and nothing but missing ancestors is created.  (A path too long for the buffer is
    refused unless the directory already exists.) *)
Theorem C49_create_dirs : forall deny fs pmax junk dir_name s,
  fs_ok fs -> holds dir_name s -> s <> [] -> List.length junk = pmax ->
  let abs := fst (path_of s) in let l := snd (path_of s) in
  exists fs' rv, create_dirs deny fs pmax junk dir_name = Ok (fs', rv) /\ fs_ok fs' /\
    (forall p, fs p <> None -> fs' p = fs p) /\
    (forall p, fs p = None -> fs' p <> None -> fs' p = Some Dir /\ exists k, p = (abs, firstn k l)) /\
    (rv = 0 \/ rv = -1) /\
    (rv = 0 -> forall k, fs' (abs, firstn k l) = Some Dir) /\
    (rv = -1 <-> (exists k, fs (abs, firstn k l) = Some File \/
                   (fs (abs, firstn k l) = None /\ deny (abs, firstn k l) = true)) \/
                 ((pmax <= List.length s)%nat /\ fs (abs, l) = None)).
Proof.
  intros deny fs pmax junk dir_name s OK H NE LJ abs l.
  rewrite (create_dirs_walk deny fs pmax junk dir_name s OK H NE LJ). cbv zeta. fold abs. fold l.
  assert (EP : path_of s = (abs, l)) by reflexivity. rewrite EP.
  assert (DOWN : fs (abs, l) <> None -> forall k, firstn k l <> l -> fs (abs, firstn k l) = Some Dir).
  { destruct OK as [O1 O2]. intros X k. revert X.
    assert (G : forall m, (List.length l - m <= List.length l - k)%nat -> forall a b, l = a ++ b -> List.length a = m -> (k < m)%nat -> fs (abs, a) <> None -> fs (abs, firstn k l) = Some Dir).
    { induction m as [|m IH]; intros _ a b E LA KM FA; [lia|].
      destruct a as [|x a _] using rev_ind; [cbn in LA; lia|]. rewrite app_length in LA. cbn in LA.
      assert (FD : fs (abs, a) = Some Dir) by (apply (O2 abs a x); auto).
      destruct (Nat.eq_dec k m) as [->|NK].
      - assert (firstn m l = a) as ->; auto. rewrite E, <- app_assoc, firstn_app. replace (m - List.length a)%nat with 0%nat by lia.
        cbn. rewrite app_nil_r. apply firstn_all2. lia.
      - apply (IH ltac:(lia) a ([x] ++ b)); auto; try lia; [rewrite E, <- app_assoc; auto|congruence]. }
    intros X NK. assert (KL : (k < List.length l)%nat).
    { destruct (le_lt_dec (List.length l) k); auto. rewrite firstn_all2 in NK by lia. congruence. }
    apply (G (List.length l) ltac:(lia) l []); auto; rewrite ?app_nil_r; auto. }
  assert (ALL : forall k, firstn k l = l \/ firstn k l <> l).
  { intros k. destruct (list_eq_dec (list_eq_dec Z.eq_dec) (firstn k l) l); auto. }
  assert (FULL : firstn (List.length l) l = l) by apply firstn_all.
  destruct (fs (abs, l)) as [[|]|] eqn:FQ.
  - exists fs, 0. split; auto. split; auto. split; auto. split; [congruence|]. split; auto.
    split.
    + intros _ k. destruct (ALL k) as [-> | N]; auto. apply DOWN; auto. congruence.
    + split; [lia|]. intros [[k K]|[_ K]]; [|congruence]. destruct (ALL k) as [E|N].
      * rewrite E, FQ in K. destruct K as [K|[K _]]; congruence.
      * rewrite (DOWN ltac:(congruence) k N) in K. destruct K as [K|[K _]]; congruence.
  - exists fs, (-1). split; auto. split; auto. split; auto. split; [congruence|]. split; auto. split; [lia|].
    split; auto. intros _. left. exists (List.length l). rewrite FULL. auto.
  - destruct (Nat.leb_spec pmax (List.length s)).
    + exists fs, (-1). split; auto. split; auto. split; auto. split; [congruence|]. split; auto. split; [lia|]. split; auto.
    + destruct (walk_props deny abs l fs [] OK (proj1 OK abs)) as (H1 & H2 & H3 & H4 & H5). cbn [app] in *.
      eexists _, _. split; [reflexivity|]. split; auto. split; auto. split; auto.
      destruct (snd (walk deny fs abs [] l)).
      * split; auto. split; auto. split; [lia|]. intros [K|[K _]]; [|lia]. assert (true = false) by (apply H5; auto). congruence.
      * split; auto. split; [lia|]. split; auto. intros _. left. apply H5. auto.
Qed.

(** A concrete file system: /var exists, /var/log/f is a file. *)
Definition fs0 : fsys := fun p => match p with
  | (_, []) => Some Dir
  | (true, [a]) => if list_eq_dec Z.eq_dec a (zs "var") then Some Dir else None
  | (true, [a; b]) => if list_eq_dec Z.eq_dec a (zs "var") then if list_eq_dec Z.eq_dec b (zs "f") then Some File else None else None
  | _ => None end.
Example C49_create_dirs_example : fs_ok fs0 /\
  (exists fs', create_dirs (fun _ => false) fs0 30 (repeat 9 30) (zs "//var/log//conman/" ++ [NUL]) = Ok (fs', 0) /\
     fs' (true, [zs "var"; zs "log"]) = Some Dir /\ fs' (true, [zs "var"; zs "log"; zs "conman"]) = Some Dir /\
     fs' (true, [zs "log"]) = None) /\
  (exists fs', create_dirs (fun _ => false) fs0 30 (repeat 9 30) (zs "/var/f/x" ++ [NUL]) = Ok (fs', -1)).
Proof.
  split.
  - split; [intros []; reflexivity|]. intros a l x.
    destruct a; destruct l as [|y [|z [|w l]]]; cbn [app fs0]; try congruence;
      repeat (destruct (list_eq_dec Z.eq_dec _ _); cbn [fs0]; try congruence; auto).
  - split; eexists; [split; [vm_compute; reflexivity|]|vm_compute; reflexivity]. repeat split; vm_compute; reflexivity.
Qed.

Print Assumptions C23_read_line.
Print Assumptions C23_read_line_error.
Print Assumptions C23_read_n.
Print Assumptions C23_write_n.
Print Assumptions C49_dirname.
Print Assumptions C49_create_dirs.
