(** * Sizes in bytes, and the letter case of checksums (C29, C88) *)

Require Import String NArith PeanoNat Bool List Lia.
From Verif Require Import PyBase PyFacts BagIt BagValid.
Import ListNotations.
Open Scope N_scope.

(** ** C29 *)

(** The bytes of a character in UTF-8, from the table in section 4 of
    RFC 3629 (from memory). *)
Inductive utf8_of : N -> list N -> Prop :=
| one_byte c : c <= 127 -> utf8_of c [c]
| two_bytes x y c : 194 <= x <= 223 -> 128 <= y <= 191 -> c = (x - 192) * 64 + (y - 128) -> utf8_of c [x; y]
| three_bytes x y z c : 224 <= x <= 239 -> 128 <= y <= 191 -> 128 <= z <= 191 -> (x = 224 -> 160 <= y) ->
    c = (x - 224) * 4096 + (y - 128) * 64 + (z - 128) -> utf8_of c [x; y; z]
| four_bytes x y z u c : 240 <= x <= 244 -> 128 <= y <= 191 -> 128 <= z <= 191 -> 128 <= u <= 191 -> (x = 240 -> 144 <= y) ->
    c = (x - 240) * 262144 + (y - 128) * 4096 + (z - 128) * 64 + (u - 128) -> utf8_of c [x; y; z; u].

Inductive text_bytes : pystr -> list N -> Prop :=
| no_bytes : text_bytes [] []
| more_bytes c s x l : utf8_of c x -> text_bytes s l -> text_bytes (c :: s) (x ++ l).

(** The size counted for a text is the number of its bytes. *)
Theorem C29_bytes : forall s l, text_bytes s l -> utf8_len s = N.of_nat (length l).
Proof.
  intros s l H. induction H as [|c s x l Hx _ IH]; [reflexivity|]. cbn [utf8_len]. rewrite app_length, Nat2N.inj_add, IH. f_equal.
  unfold utf8_len1. destruct Hx as [c H1|a b c H1 H2 ->|a b d c H1 H2 H3 H4 ->|a b d e c H1 H2 H3 H4 H5 ->]; cbn [length];
    repeat match goal with |- context [?p <? ?q] => destruct (N.ltb_spec p q) end; try reflexivity; exfalso; try lia.
Qed.
Print Assumptions C29_bytes.

Lemma utf8_some c : c < 1114112 -> exists l, utf8_of c l.
Proof.
  intros L. destruct (N.le_gt_cases c 127) as [H1|H1]; [eexists; apply one_byte; exact H1|].
  pose proof (N.div_mod c 64 ltac:(discriminate)) as E1. pose proof (N.mod_lt c 64 ltac:(discriminate)) as L1. set (q := c / 64) in *. set (m := c mod 64) in *. clearbody q m.
  destruct (N.le_gt_cases c 2047) as [H2|H2]; [exists [192 + q; 128 + m]; apply two_bytes; lia|].
  pose proof (N.div_mod q 64 ltac:(discriminate)) as E2. pose proof (N.mod_lt q 64 ltac:(discriminate)) as L2. set (q2 := q / 64) in *. set (m2 := q mod 64) in *. clearbody q2 m2.
  destruct (N.le_gt_cases c 65535) as [H3|H3]; [exists [224 + q2; 128 + m2; 128 + m]; apply three_bytes; lia|].
  pose proof (N.div_mod q2 64 ltac:(discriminate)) as E3. pose proof (N.mod_lt q2 64 ltac:(discriminate)) as L3. set (q3 := q2 / 64) in *. set (m3 := q2 mod 64) in *. clearbody q3 m3.
  exists [240 + q3; 128 + m3; 128 + m2; 128 + m]. apply four_bytes; lia.
Qed.

(** Every text of Unicode characters has bytes. *)
Theorem C29_bytes_exist : forall s, Forall (fun c => c < 1114112) s -> exists l, text_bytes s l.
Proof.
  induction 1 as [|c s Hc _ [l IH]]; [eexists; constructor|]. destruct (utf8_some c Hc) as [x Hx]. eexists. constructor; eassumption.
Qed.
Print Assumptions C29_bytes_exist.

Example C29_bytes_case : text_bytes [65; 233; 8364; 128512] [65; 195; 169; 226; 130; 172; 240; 159; 152; 128] /\ utf8_len [65; 233; 8364; 128512] = 10.
Proof.
  split; [|reflexivity]. apply (more_bytes 65 _ [65]); [apply one_byte; lia|]. apply (more_bytes 233 _ [195; 169]); [apply two_bytes; lia|].
  apply (more_bytes 8364 _ [226; 130; 172]); [apply three_bytes; lia|]. apply (more_bytes 128512 [] [240; 159; 152; 128] []); [apply four_bytes; lia|constructor].
Qed.

(** ** C88 *)

Definition capitals : pystr := U "ABCDEFGHIJKLMNOPQRSTUVWXYZ".
Definition small : pystr := U "abcdefghijklmnopqrstuvwxyz".

(** A checksum is compared with its capital letters replaced by the small ones,
    and nothing else changed. *)
Theorem C88_letter_case : forall s i c,
  nth_error (lower s) i = Some c <->
  exists x, nth_error s i = Some x /\
    ((exists k, nth_error capitals k = Some x /\ nth_error small k = Some c) \/ (~ In x capitals /\ c = x)).
Proof.
  intros s i c. unfold lower. rewrite nth_error_map.
  assert (Cap : forall x, In x capitals <-> 65 <= x <= 90).
  { intros x. split; [intros H; vm_compute in H; intuition (subst; lia)|]. intros [H1 H2].
    assert (E : exists k, (k < 26)%nat /\ x = 65 + N.of_nat k) by (exists (N.to_nat (x - 65)); split; lia). destruct E as (k & Hk & ->).
    do 26 (destruct k as [|k]; [vm_compute; tauto|]). lia. }
  assert (Pair : forall k x y, nth_error capitals k = Some x -> nth_error small k = Some y -> y = x + 32).
  { intros k x y E1. assert (L : (k < 26)%nat) by (change 26%nat with (length capitals); apply nth_error_Some; rewrite E1; discriminate). revert E1.
    do 26 (destruct k as [|k]; [intros E1 E2; vm_compute in E1, E2; injection E1 as <-; injection E2 as <-; reflexivity|]). lia. }
  destruct (nth_error s i) as [x|]; cbn [option_map]; [|split; [discriminate|intros (x & E & _); discriminate E]].
  destruct ((65 <=? x) && (x <=? 90)) eqn:B.
  - apply andb_true_iff in B. rewrite !N.leb_le in B. apply Cap in B. split.
    + intros E. injection E as <-. exists x. split; [reflexivity|]. left. apply In_nth_error in B. destruct B as [k Ek]. exists k. split; [exact Ek|].
      assert (L : (k < length small)%nat) by (change (length small) with (length capitals); apply nth_error_Some; rewrite Ek; discriminate).
      apply nth_error_Some in L. destruct (nth_error small k) as [y|] eqn:Ey; [|congruence]. rewrite (Pair _ _ _ Ek Ey). reflexivity.
    + intros (x' & E & H). injection E as <-. destruct H as [(k & E1 & E2)|[H _]]; [rewrite (Pair _ _ _ E1 E2); reflexivity|contradiction].
  - assert (Nc : ~ In x capitals) by (rewrite Cap; rewrite andb_false_iff, !N.leb_gt in B; lia). split.
    + intros E. injection E as <-. exists x. auto.
    + intros (x' & E & H). injection E as <-. destruct H as [(k & E1 & _)|[_ ->]]; [elim Nc; eapply nth_error_In; exact E1|reflexivity].
Qed.
Print Assumptions C88_letter_case.

Example C88_letter_case_case : lower (U "0aAfZ@[`{9") = U "0aafz@[`{9".
Proof. reflexivity. Qed.
