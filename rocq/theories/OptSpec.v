(** What option strings mean. *)
From Coq Require Import String.
From Verif Require Import Base Chars Fmt OptModel.
Local Open Scope Z_scope.

(** ** Lists *)

(** [s] cut at each of its separators. *)
Inductive cut (sep : Z -> Prop) : list Z -> list (list Z) -> Prop :=
| cut_last f : Forall (fun c => ~ sep c) f -> cut sep f [f]
| cut_more f c s fs : Forall (fun c => ~ sep c) f -> sep c -> cut sep s fs -> cut sep (f ++ c :: s) (f :: fs).

(** The fields of [s], without the empty ones. *)
Definition fields (sep : Z -> Prop) (s : list Z) (ts : list (list Z)) : Prop :=
  exists fs, cut sep s fs /\ ts = filter (fun f => negb (length f =? 0)%nat) fs.

Definition comma (c : Z) : Prop := c = COMMA.

(** ** Numbers, as in C source *)

Definition dec_digit (c : Z) : Prop := 48 <= c <= 57.
Definition oct_digit (c : Z) : Prop := 48 <= c <= 55.
Definition hex_digit (c : Z) : Prop := 48 <= c <= 57 \/ 65 <= c <= 70 \/ 97 <= c <= 102.
Definition hexv (c : Z) : Z := if c <=? 57 then c - 48 else if c <=? 70 then c - 65 + 10 else c - 97 + 10.
Definition value (b : Z) (ds : list Z) : Z := fold_left (fun a d => a * b + hexv d) ds 0.

Definition magnitude (s : list Z) (m : Z) : Prop :=
  (exists x ds, s = 48 :: x :: ds /\ (x = 120 \/ x = 88) /\ ds <> [] /\ Forall hex_digit ds /\ m = value 16 ds) \/
  (exists ds, s = 48 :: ds /\ Forall oct_digit ds /\ m = value 8 ds) \/
  (exists d ds, s = d :: ds /\ 49 <= d <= 57 /\ Forall dec_digit ds /\ m = value 10 (d :: ds)).

Definition space (c : Z) : Prop := 9 <= c <= 13 \/ c = 32.

Definition numeral (s : list Z) (v : Z) : Prop :=
  exists sp body m, Forall space sp /\ magnitude body m /\
    ((s = sp ++ body /\ v = m) \/ (s = sp ++ PLUS :: body /\ v = m) \/ (s = sp ++ MINUS :: body /\ v = - m)).

(** ** Serial options *)

Definition supported (v : Z) : Prop :=
  In v [50; 75; 110; 134; 150; 200; 300; 600; 1200; 1800; 2400; 4800; 9600; 19200; 38400; 57600; 115200; 230400; 460800].

(** [v] is the largest supported speed not above [req]. *)
Definition best_speed (req v : Z) : Prop :=
  supported v /\ v <= req /\ forall w, supported w -> w <= req -> w <= v.

Definition serial_ok (o : seropt) : Prop :=
  supported (s_bps o) /\ 5 <= s_databits o <= 8 /\ 0 <= s_parity o <= 2 /\ 1 <= s_stopbits o <= 2.

(** The meaning of a parity letter. *)
Definition parity (c : Z) (p : Z) : Prop :=
  (p = 0 /\ In c (zs "Nn")) \/ (p = 1 /\ In c (zs "Oo")) \/ (p = 2 /\ In c (zs "Ee")).

(** ** Test options *)

Definition test_ok (o : testopt) : Prop :=
  0 <= o_bytes o <= INT_MAX /\ -1 <= o_max o <= INT_MAX /\ -1 <= o_min o <= INT_MAX /\ 0 <= o_prob o <= 100.

(** The option [t] changes [o] to [o']. *)
Definition test_option (t : list Z) (o o' : testopt) : Prop :=
  exists c p v, t = c :: COLON :: p /\ (numeral p v \/ p = [] /\ v = 0) /\ 0 <= v <= INT_MAX /\
    ((In c (zs "Bb") /\ o' = mkTest v (o_max o) (o_min o) (o_prob o)) \/
     (In c (zs "Mm") /\ o' = mkTest (o_bytes o) v (o_min o) (o_prob o)) \/
     (In c (zs "Nn") /\ o' = mkTest (o_bytes o) (o_max o) v (o_prob o)) \/
     (In c (zs "Pp") /\ o' = mkTest (o_bytes o) (o_max o) (o_min o) (Z.min v 100))).

Inductive test_options : list (list Z) -> testopt -> testopt -> Prop :=
| to_nil o : test_options [] o o
| to_cons t ts o o1 o2 : test_option t o o1 -> test_options ts o1 o2 -> test_options (t :: ts) o o2.

(** ** The test console *)

(** The [k]-th character the test console emits: the printable characters other than
    the space, in cyclic order. *)
Definition cyc (k : nat) : Z := 33 + Z.of_nat k mod 94.

(** Successive timer expirations with the given results of rand(): what is emitted
    by each, and the delay before the next. *)
Fixpoint test_run (size : nat) (o : testopt) (d : test) (rs : list (Z * Z)) : res (test * list (list Z * Z)) :=
  match rs with
  | [] => Ok (d, [])
  | (r1, r2) :: rs =>
      do x <- read_test_obj size o d r1 r2;
      let '(d1, out, delay) := x in
      do y <- test_run size o d1 rs;
      Ok (fst y, (out, delay) :: snd y)
  end.

Definition emitted (os : list (list Z * Z)) : list Z := concat (map fst os).

(** The delay configured by [o]. *)
Definition delay_ok (o : testopt) (ms : Z) : Prop :=
  if o_max o <? 0 then ms = 100 else Z.min (Z.max 0 (o_min o)) (o_max o) <= ms <= o_max o.

(** ** Keys *)

(** The bytes denoted by hexadecimal digits: a missing last one counts as zero. *)
Fixpoint hex_bytes (ds : list Z) : list Z :=
  match ds with
  | [] => []
  | [d] => [hexv d * 16]
  | d1 :: d2 :: ds => hexv d1 * 16 + hexv d2 :: hex_bytes ds
  end.

(** The key string [src] denotes the bytes [k]. *)
Definition key (src k : list Z) : Prop :=
  (exists x ds, src = 48 :: x :: ds /\ (x = 120 \/ x = 88) /\ Forall hex_digit ds /\ k = hex_bytes ds) \/
  (~ (exists x ds, src = 48 :: x :: ds /\ (x = 120 \/ x = 88) /\ Forall hex_digit ds) /\ k = src).

(** ** IPMI options *)

(** A bounded string: the array holds one. *)
Definition bounded (a : list Z) (ok : list Z -> Prop) : Prop :=
  exists s junk, a = s ++ NUL :: junk /\ ~ In NUL s /\ ok s.

(** Every setting that has been made is acceptable to the library, and all strings
    are terminated within their arrays. *)
Definition ipmi_ok (L : lib) (su sp sk : nat) (o : ipmiopt) : Prop :=
  length (i_user o) = su /\ length (i_pass o) = sp /\ length (i_kg o) = sk /\
  bounded (i_user o) (fun s => s = [] \/ v_user L s = true) /\
  bounded (i_pass o) (fun s => s = [] \/ v_pass L s = true) /\
  0 <= i_kglen o < Z.of_nat sk /\
  (i_kglen o = 0 \/ v_kg L (firstn (Z.to_nat (i_kglen o)) (i_kg o)) = true) /\
  (In (i_priv o) [-1; c_user L; c_operator L; c_admin L] \/ v_priv L (i_priv o) = true) /\
  (i_cipher o = -1 \/ v_cipher L (i_cipher o) = true).

(** ** Log options *)

Definition lower (t : list Z) : list Z := map tolower t.

Definition log_separator (c : Z) : Prop := In c (zs " .,;") \/ c = TAB \/ c = LF.

(** The word [on] or [off] that comes last decides, otherwise the default. *)
Definition setting (on off : string) (ts : list (list Z)) (default b : bool) : Prop :=
  (exists ts1 t ts2, ts = ts1 ++ t :: ts2 /\
     (lower t = zs on /\ b = true \/ lower t = zs off /\ b = false) /\
     Forall (fun u => lower u <> zs on /\ lower u <> zs off) ts2) \/
  (Forall (fun u => lower u <> zs on /\ lower u <> zs off) ts /\ b = default).

(** ** What one IPMI option says

    [p] is the text after the letter and the colon; [r] is the outcome: the new
    settings, or a rejection. *)
Definition int_range (v : Z) : Prop := - INT_MAX - 1 <= v <= INT_MAX.
Definition text_in (a s : list Z) : Prop := exists junk, a = s ++ NUL :: junk.

(** A user name that fits and that the library accepts; nothing else changes. *)
Definition user_option (L : lib) (o : ipmiopt) (p : list Z) (r : option ipmiopt) : Prop :=
  match r with
  | Some o' => (length p < length (i_user o))%nat /\ (p = [] \/ v_user L p = true) /\
      exists a, text_in a p /\ length a = length (i_user o) /\
        o' = mkIpmi a true (i_pass o) (i_pass_set o) (i_kg o) (i_kglen o) (i_kg_set o) (i_priv o) (i_cipher o) (i_work o)
  | None => (length (i_user o) <= length p)%nat \/ (p <> [] /\ v_user L p = false)
  end.
(** A password: the key that the text denotes, accepted up to its first NUL. *)
Definition password_option (L : lib) (o : ipmiopt) (p : list Z) (r : option ipmiopt) : Prop :=
  exists k, key p k /\
  match r with
  | Some o' => (length k < length (i_pass o))%nat /\
      (p = [] \/ exists s t, k ++ [NUL] = s ++ NUL :: t /\ ~ In NUL s /\ v_pass L s = true) /\
      exists a, text_in a k /\ length a = length (i_pass o) /\
        o' = mkIpmi (i_user o) (i_user_set o) a true (i_kg o) (i_kglen o) (i_kg_set o) (i_priv o) (i_cipher o) (i_work o)
  | None => (length (i_pass o) <= length k)%nat \/ exists s t, k ++ [NUL] = s ++ NUL :: t /\ ~ In NUL s /\ v_pass L s = false
  end.
(** The key of the BMC, with its length. *)
Definition kg_option (L : lib) (o : ipmiopt) (p : list Z) (r : option ipmiopt) : Prop :=
  exists k, key p k /\
  match r with
  | Some o' => (length k < length (i_kg o))%nat /\ (p = [] \/ v_kg L k = true) /\
      exists a, text_in a k /\ length a = length (i_kg o) /\
        o' = mkIpmi (i_user o) (i_user_set o) (i_pass o) (i_pass_set o) a (Z.of_nat (length k)) true (i_priv o) (i_cipher o) (i_work o)
  | None => (length (i_kg o) <= length k)%nat \/ v_kg L k = false
  end.
(** The privilege level, by name or number. *)
Definition priv_says (L : lib) (p : list Z) (v : Z) : Prop :=
  (p = [] /\ v = -1) \/ (lower p = zs "user" /\ v = c_user L) \/
  ((lower p = zs "op" \/ lower p = zs "operator") /\ v = c_operator L) \/
  ((lower p = zs "admin" \/ lower p = zs "administrator") /\ v = c_admin L) \/
  (numeral p v /\ v_priv L v = true).
Definition privilege_option (L : lib) (o : ipmiopt) (p : list Z) (r : option ipmiopt) : Prop :=
  match r with
  | Some o' => exists v, priv_says L p v /\
      o' = mkIpmi (i_user o) (i_user_set o) (i_pass o) (i_pass_set o) (i_kg o) (i_kglen o) (i_kg_set o) v (i_cipher o) (i_work o)
  | None => forall v, ~ priv_says L p v
  end.
Definition cipher_says (L : lib) (p : list Z) (v : Z) : Prop :=
  (p = [] /\ v = -1) \/ (numeral p v /\ v_cipher L v = true).
Definition cipher_option (L : lib) (o : ipmiopt) (p : list Z) (r : option ipmiopt) : Prop :=
  match r with
  | Some o' => exists v, cipher_says L p v /\
      o' = mkIpmi (i_user o) (i_user_set o) (i_pass o) (i_pass_set o) (i_kg o) (i_kglen o) (i_kg_set o) (i_priv o) v (i_work o)
  | None => forall v, ~ cipher_says L p v
  end.
(** A workaround flag, by name or number; flags add up, but for "none" and the
    default, which start afresh. *)
Definition flags_ok (L : lib) : Prop :=
  NoDup (map fst (c_flags L)) /\
  Forall (fun x => lower (fst x) = fst x /\ fst x <> zs "default" /\ fst x <> zs "none" /\ exists c t, fst x = c :: t /\ 97 <= c <= 122) (c_flags L).
Definition work_says (L : lib) (p : list Z) (f : Z) : Prop :=
  ((p = [] \/ lower p = zs "default") /\ f = c_default L) \/ In (lower p, f) (c_flags L) \/
  (lower p = zs "none" /\ f = 0) \/ (numeral p f /\ v_work L f = true).
Definition work_option (L : lib) (o : ipmiopt) (p : list Z) (r : option ipmiopt) : Prop :=
  match r with
  | Some o' => exists f, work_says L p f /\
      o' = mkIpmi (i_user o) (i_user_set o) (i_pass o) (i_pass_set o) (i_kg o) (i_kglen o) (i_kg_set o) (i_priv o) (i_cipher o)
        (if (f =? 0) || (f =? c_default L) || (i_work o =? c_default L) then f else Z.lor (i_work o) f)
  | None => forall f, ~ work_says L p f
  end.
Definition ipmi_option (L : lib) (o : ipmiopt) (c : Z) (p : list Z) (r : option ipmiopt) : Prop :=
  (In c (zs "Uu") /\ user_option L o p r) \/ (In c (zs "Pp") /\ password_option L o p r) \/ (In c (zs "Kk") /\ kg_option L o p r) \/
  (In c (zs "Ll") /\ privilege_option L o p r) \/ (In c (zs "Cc") /\ cipher_option L o p r) \/ (In c (zs "Ww") /\ work_option L o p r) \/
  (~ In c (zs "UuPpKkLlCcWw") /\ r = None).

(** The older form, in which position decides: user name, password, key, workaround
    flags, with "-" for an empty field. *)
Fixpoint joined (ts : list (list Z)) : list Z :=
  match ts with [] => [] | [t] => t | t :: ts => t ++ COMMA :: joined ts end.
Definition field_text (t : list Z) : list Z := if list_eqb t (zs "-") then [] else t.
Definition labelled (ts : list (list Z)) : list (list Z) :=
  match ts with
  | [] => []
  | [u] => [zs "U:" ++ field_text u]
  | [u; p] => [zs "U:" ++ field_text u; zs "P:" ++ field_text p]
  | u :: p :: k :: ws => [zs "U:" ++ field_text u; zs "P:" ++ field_text p; zs "K:" ++ field_text k] ++ map (fun w => zs "W:" ++ field_text w) ws
  end.
