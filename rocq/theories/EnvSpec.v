(** Environments. *)
From Coq Require Import String.
From Verif Require Import Base Chars.
Local Open Scope list_scope.

(** variable [key] has value [v] in [env]: the first entry for it counts *)
Definition entry (key v : list Z) : list Z := key ++ zs "=" ++ v.
Definition value (env : list (list Z)) (key v : list Z) : Prop :=
  exists before after, env = before ++ entry key v :: after /\ forall w, ~ In (entry key w) before.
Definition set_ (env : list (list Z)) (key : list Z) : Prop := exists v, value env key v.
