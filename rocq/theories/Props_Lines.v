(** * Where a line of a text file ends (C03) *)

Require Import String NArith PeanoNat Bool List Lia.
From Verif Require Import PyBase.
Import ListNotations.
Open Scope N_scope.

(** What ends a line: for [open] the line feed and the carriage return, for
    [codecs.open] every character at which [str.splitlines] splits. *)
Definition ends_line (r : reader) : list N :=
  match r with
  | IoText => [10; 13]
  | Codecs => [10; 11; 12; 13; 28; 29; 30; 133; 8232; 8233]
  end.

Lemma brk_ends r c : is_brk r c = true <-> In c (ends_line r).
Proof.
  destruct r; cbn [is_brk ends_line In]; rewrite ?orb_true_iff, ?andb_true_iff, ?N.eqb_eq, ?N.leb_le; lia.
Qed.

(** A text without line ends is one line; the first line end splits the text
    there, and goes with the line before. *)
Theorem C03_lines : forall r a,
  (forall c, In c a -> ~ In c (ends_line r)) ->
  pylines r a = match a with [] => [] | _ => [a] end /\
  forall c b, In c (ends_line r) -> (c = 13 -> hd 0 b <> 10) -> pylines r (a ++ c :: b) = (a ++ [c]) :: pylines r b.
Proof.
  intros r a. induction a as [|x a IH]; intros H.
  - split; [reflexivity|]. intros c b I0 D. apply brk_ends in I0. cbn [app pylines]. rewrite I0. destruct b as [|d b]; [reflexivity|].
    destruct ((c =? 13) && (d =? 10)) eqn:E; [|reflexivity]. apply andb_true_iff in E. destruct E as [E1 E2].
    apply N.eqb_eq in E1, E2. subst. destruct (D eq_refl eq_refl).
  - assert (B : is_brk r x = false).
    { destruct (is_brk r x) eqn:E; [|reflexivity]. apply brk_ends in E. destruct (H x (or_introl eq_refl) E). }
    destruct IH as [IH1 IH2]; [intros c I0; apply H; right; exact I0|]. split.
    + cbn [pylines]. rewrite B, IH1. destruct a; reflexivity.
    + intros c b I0 D. cbn [app pylines]. rewrite B, (IH2 c b I0 D). reflexivity.
Qed.
Print Assumptions C03_lines.

(** A carriage return and a line feed are one line end. *)
Theorem C03_crlf : forall r b, pylines r (13 :: 10 :: b) = [13; 10] :: pylines r b.
Proof. intros [] b; reflexivity. Qed.
Print Assumptions C03_crlf.

Example C03_lines_case :
  pylines Codecs (U "a" ++ [30] ++ U "b" ++ [31] ++ U "c" ++ [13; 10] ++ U "d") =
    [U "a" ++ [30]; U "b" ++ [31] ++ U "c" ++ [13; 10]; U "d"] /\
  pylines IoText (U "a" ++ [30] ++ U "b" ++ [10]) = [U "a" ++ [30] ++ U "b" ++ [10]].
Proof. split; reflexivity. Qed.
