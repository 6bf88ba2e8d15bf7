(** C61: copies of resolver results. *)
From Coq Require Import String.
From Verif Require Import Base BaseProof Mem Chars HostModel HostSpec HostProof.
From Coq Require Import ZifyNat.
Local Open Scope nat_scope.

(** Whatever the resolver returns and however small the buffer: the copy fails exactly if
    there is too little room; otherwise the buffer contains an equal result, entirely
    within the room given, and nothing beyond it is touched.  There is no access outside
    the buffer in either case. *)
Theorem C61_copy : forall p src buf len, 1 <= p -> Forall (fun a => List.length a = h_length src) (h_addrs src) ->
  (len <= Z.of_nat (List.length buf))%Z ->
  exists r, copy_hostent p src buf len = Ok r /\
  (r = None <-> (len < Z.of_nat (host_size p src))%Z) /\
  forall buf', r = Some buf' ->
    host_in p (Z.to_nat len) buf' src /\ List.length buf' = List.length buf /\
    forall i, Z.to_nat len <= i -> nth_error buf' i = nth_error buf i.
Proof.
  intros p src buf len P F L. destruct (copy_ok p P src buf len F L) as (r & R & RN & RS). exists r. split; [exact R|].
  destruct (Z.ltb_spec len (Z.of_nat (host_size p src))) as [T|T].
  - rewrite (RN T). split; [tauto|]. discriminate.
  - destruct (RS T) as (b & -> & FR & H). split; [split; [discriminate|lia]|]. intros buf' X. injection X as <-. split; [exact H|].
    destruct FR as [LE FR]. split; [exact LE|]. intros i I. apply FR. lia.
Qed.
(** The address of a host, as seen by the client and for terminal servers. *)
Theorem C61_address : forall p found buf addr, 1 <= p -> List.length addr = 4 ->
  (forall h, found = Some h -> host_ok h /\ h_addrs h <> []) ->
  exists r, host_name_to_addr4 p found buf addr = Ok r /\
  match r with
  | None => found = None \/ exists h, found = Some h /\ (List.length buf < host_size p h \/ 4 < h_length h)
  | Some addr' => exists h a t, found = Some h /\ h_addrs h = a :: t /\ h_length h <= 4 /\ addr' = map CB a ++ skipn (h_length h) addr
  end.
Proof.
  intros p found buf addr P L H. unfold host_name_to_addr4, get_host. destruct found as [h|]; [|exists None; split; [reflexivity|auto]].
  destruct (H h eq_refl) as [(C1 & C2 & C3) NE]. destruct (copy_ok p P h buf (Z.of_nat (List.length buf)) C3 ltac:(lia)) as (r & R & RN & RS).
  rewrite R. cbn [bind]. destruct (Z.ltb_spec (Z.of_nat (List.length buf)) (Z.of_nat (host_size p h))) as [T|T].
  { rewrite (RN T). exists None. split; [reflexivity|]. right. exists h. split; [auto|]. left. lia. }
  destruct (RS T) as (b & -> & FR & HI). destruct (h_addrs h) as [|a t] eqn:EA; [congruence|].
  destruct (addr_back p P _ b h a t P ltac:(rewrite EA; exact C3) EA HI) as [I1 I2]. rewrite I1. cbn [bind].
  destruct (Z.ltb_spec 4 (Z.of_nat (h_length h))) as [T2|T2].
  { exists None. split; [reflexivity|]. right. exists h. split; [auto|]. right. lia. }
  rewrite I2. cbn [bind snd]. inversion C3 as [|? ? LA _]; subst. rewrite blit_ok by (rewrite map_length; lia). cbn [bind firstn app].
  eexists. split; [reflexivity|]. exists h, a, t. rewrite map_length, LA. split; [auto|]. split; [auto|]. split; [lia|reflexivity].
Qed.
(** The name of a host, as seen by the server for its clients. *)
Theorem C61_name : forall p found buf dst, 1 <= p -> (forall h, found = Some h -> host_ok h) ->
  exists r, host_addr4_to_name p found buf dst (List.length dst) = Ok r /\
  match r with
  | None => found = None \/ exists h, found = Some h /\ (List.length buf < host_size p h \/ List.length dst <= List.length (h_name h))
  | Some dst' => exists h junk, found = Some h /\ dst' = h_name h ++ 0%Z :: junk /\ List.length dst' = List.length dst
  end.
Proof.
  intros p found buf dst P H. unfold host_addr4_to_name, get_host. destruct found as [h|]; [|exists None; split; [reflexivity|auto]].
  destruct (H h eq_refl) as (C1 & C2 & C3). destruct (copy_ok p P h buf (Z.of_nat (List.length buf)) C3 ltac:(lia)) as (r & R & RN & RS).
  rewrite R. cbn [bind]. destruct (Z.ltb_spec (Z.of_nat (List.length buf)) (Z.of_nat (host_size p h))) as [T|T].
  { rewrite (RN T). exists None. split; [reflexivity|]. right. exists h. split; [auto|]. left. lia. }
  destruct (RS T) as (b & -> & FR & HI). unfold copy_name. rewrite (name_back p P _ b h P C1 HI). cbn [bind].
  destruct (Nat.leb_spec (List.length dst) 0) as [D0|D0]; cbn [orb].
  { exists None. split; [reflexivity|]. right. exists h. split; [auto|]. right. lia. }
  destruct (Nat.leb_spec (List.length dst) (List.length (h_name h))) as [D1|D1].
  { exists None. split; [reflexivity|]. right. exists h. split; [auto|]. right. lia. }
  set (k := List.length dst - List.length (h_name h)). assert (K : 1 <= k /\ List.length (h_name h) + k = List.length dst) by lia. clearbody k.
  rewrite blit_ok by (rewrite app_length, repeat_length; lia). cbn [bind firstn app]. rewrite app_length, repeat_length, skipn_all2, app_nil_r by lia.
  destruct k as [|k]; [lia|]. replace (repeat 0%Z (S k)) with (repeat 0%Z k ++ [0%Z]) by (change [0%Z] with (repeat 0%Z 1); rewrite <- repeat_app; f_equal; lia).
  rewrite app_assoc. rewrite put_eq by (rewrite app_length, repeat_length; lia). cbn [bind]. eexists. split; [reflexivity|].
  rewrite <- app_assoc. destruct k as [|k]; cbn [repeat app].
  - exists h, []. split; [auto|]. split; [reflexivity|]. rewrite app_length. cbn [List.length]. lia.
  - exists h, (repeat 0%Z k ++ [0%Z]). split; [auto|]. split; [reflexivity|]. rewrite app_length. cbn [List.length]. rewrite app_length, repeat_length. cbn [List.length]. lia.
Qed.

(** ** Examples and what does not hold *)
Definition ex_host : hostent := mkHost (zs "node1.example.org") [zs "node1"; zs "n1"] 2 4 [[10; 0; 0; 1]; [10; 0; 0; 2]]%Z.
Definition ex_host6 : hostent := mkHost (zs "node6") [] 10 16 [repeat 7%Z 16].
Definition junk (n : nat) : list cell := repeat (CB 85) n.
Example C61_example : host_ok ex_host /\ h_addrs ex_host <> [] /\ host_size 8 ex_host = 115 /\
  (exists b, copy_hostent 8 ex_host (junk 120) 115 = Ok (Some b)) /\ copy_hostent 8 ex_host (junk 120) 114 = Ok None /\
  host_name_to_addr4 8 (Some ex_host) (junk 200) (junk 4) = Ok (Some (map CB [10; 0; 0; 1]%Z)) /\
  host_addr4_to_name 8 (Some ex_host) (junk 200) (repeat 85%Z 20) 20 = Ok (Some (zs "node1.example.org" ++ repeat 0%Z 3)%list).
Proof.
  split; [split; [|split]|].
  - repeat constructor; discriminate.
  - repeat constructor; discriminate.
  - repeat constructor.
  - split; [discriminate|]. split; [reflexivity|]. split; [eexists; vm_compute; reflexivity|]. split; [vm_compute; reflexivity|].
    split; vm_compute; reflexivity.
Qed.
(** host_name_to_cname() does not check the length of the address: with a resolver that
    returns IPv6 addresses it writes 16 bytes into a struct in_addr of 4. *)
Theorem C61_cname_refuted :
  host_name_to_addr4 8 (Some ex_host6) (junk 200) (junk 4) = Ok None /\
  host_name_to_cname 8 (Some ex_host6) (fun _ => None) (junk 200) (junk 4) (repeat 85%Z 20) 20 = UB OutOfBounds.
Proof. split; vm_compute; reflexivity. Qed.

Print Assumptions C61_copy.
Print Assumptions C61_address.
Print Assumptions C61_name.
Print Assumptions C61_cname_refuted.
