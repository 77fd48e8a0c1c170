(** What a run of MkDataset.v adds up to, for any plan *)
Require Import String NArith ZArith PeanoNat Bool List Lia.
From Verif Require Import PyBase PyFacts Fs FsFacts Split SplitApply MkData MkDataset MkDatasetProofs.
Import ListNotations.
Open Scope Z_scope.

(** The bytes in the files of a tree, and the numbers of files and of
    directories. *)
Definition node_bytes (n : node) : Z := match n with NDir => 0 | NFile c => Z.of_N (utf8_len c) end.
Definition node_files (n : node) : Z := match n with NDir => 0 | NFile _ => 1 end.
Definition node_dirs (n : node) : Z := match n with NDir => 1 | NFile _ => 0 end.
Definition bytes_in (t : tree) : Z := sum_Z (map (fun e => node_bytes (snd e)) t).
Definition files_in (t : tree) : Z := sum_Z (map (fun e => node_files (snd e)) t).
Definition dirs_in (t : tree) : Z := sum_Z (map (fun e => node_dirs (snd e)) t).

Lemma sum_app a b : sum_Z (a ++ b) = sum_Z a + sum_Z b.
Proof. unfold sum_Z. induction a as [|x a IH]; [reflexivity|]. cbn [app fold_right]. rewrite IH. lia. Qed.
Lemma bytes_app a b : bytes_in (a ++ b) = bytes_in a + bytes_in b.
Proof. unfold bytes_in. rewrite map_app. apply sum_app. Qed.
Lemma files_app a b : files_in (a ++ b) = files_in a + files_in b.
Proof. unfold files_in. rewrite map_app. apply sum_app. Qed.
Lemma dirs_app a b : dirs_in (a ++ b) = dirs_in a + dirs_in b.
Proof. unfold dirs_in. rewrite map_app. apply sum_app. Qed.
Lemma bytes_cons p n t : bytes_in ((p, n) :: t) = node_bytes n + bytes_in t.
Proof. reflexivity. Qed.
Lemma files_cons p n t : files_in ((p, n) :: t) = node_files n + files_in t.
Proof. reflexivity. Qed.
Lemma dirs_cons p n t : dirs_in ((p, n) :: t) = node_dirs n + dirs_in t.
Proof. reflexivity. Qed.
Lemma entries_length (t : tree) : Z.of_nat (length t) = files_in t + dirs_in t.
Proof.
  induction t as [|[p n] t IH]; [reflexivity|]. rewrite files_cons, dirs_cons. cbn [length]. rewrite Nat2Z.inj_succ, IH. destruct n; cbn [node_files node_dirs]; lia.
Qed.

(** The loop over the directories of [fill_dir]. *)
Section Go.
Variables (k : N) (dir : pystr) (ts tc : Z).
Definition fill_sub (d : dspec) (s c : Z) (n : Z * Z) (w : world) : run (Z * Z) :=
  if (ts <? fst n) || (tc <? snd n) then Done n w
  else do sub, w <- create_dir k dir w; do m, w <- fill_dir k d sub s c w; Done (plus2 n m) w.
Fixpoint fill_subs (ds : list dspec) (scs : list (Z * Z)) (n : Z * Z) (w : world) {struct ds} : run (Z * Z) :=
  match ds, scs with
  | d :: ds, (s, c) :: scs =>
      if (ts <? fst n) || (tc <? snd n) then Done n w
      else do n, w <- times (Z.to_nat (d_reps d)) (fill_sub d s c) n w; fill_subs ds scs n w
  | _, _ => Done n w
  end.
End Go.

Lemma fill_dir_eq k s0 c0 r0 fs ds dir ts tc w : fill_dir k (DSpec s0 c0 r0 fs ds) dir ts tc w =
  if (ts <=? 0) || (tc <=? 0) then Done (0, 0) w
  else do fd, w <- on_tree (distribute ts tc fs ds) w;
       do n, w <- fill_files k dir ts tc (fst fd) (0, 0) w;
       fill_subs k dir ts tc ds (snd fd) n w.
Proof. reflexivity. Qed.

Lemma dspec_all (P : dspec -> Prop) :
  (forall s c r fs ds, Forall P ds -> P (DSpec s c r fs ds)) -> forall d, P d.
Proof.
  intros H. fix IH 1. intros [s c r fs ds]. apply H. induction ds as [|d ds IHds]; constructor; [apply IH|exact IHds].
Qed.

(** ** Any plan *)

Definition adds (n n' : Z * Z) (add : tree) : Prop := n' = (fst n + bytes_in add, snd n + files_in add).
Definition any (_ : tree) : Prop := True.
Definition anye (_ : exn) : Prop := True.

Lemma adds_nil n : adds n n [].
Proof. unfold adds. destruct n. cbn. f_equal; lia. Qed.
Lemma adds_app a b c x y : adds a b x -> adds b c y -> adds a c (x ++ y).
Proof. unfold adds. intros -> ->. rewrite bytes_app, files_app. cbn [fst snd]. f_equal; lia. Qed.

Lemma new_size out c (t : tree) : od_get out t = None -> size_of out (t ++ [(out, NFile c)]) = utf8_len c.
Proof.
  intros E. unfold size_of, read. rewrite get_app, E. cbn [od_get]. rewrite streq_refl. reflexivity.
Qed.

Lemma fill_sizes_any k dir maxs maxf : (0 < k)%N -> forall l nb nf w, fit_dir dir (w_tree w) -> wf_tree (w_tree w) ->
  effect k w (fill_sizes k dir maxs maxf l nb nf w) (fun n add => adds (nb, nf) n add) any anye.
Proof.
  intros K. induction l as [|sz l IH]; intros nb nf w Fd W; cbn [fill_sizes]; [apply effect_done; [exact W|apply adds_nil]|].
  destruct ((maxs <? nb + sz) || (maxf <=? nf)); [apply effect_done; [exact W|apply adds_nil]|].
  eapply effect_bind; [apply create_one_effect; auto| |intros; exact I|intros; exact I].
  intros f w' add T W' (c & Ec & -> & Eg & _). rewrite T, new_size by exact Eg.
  eapply effect_weaken; [apply IH; [rewrite T; apply fit_dir_grows; exact Fd|exact W']| |auto|auto].
  intros n more H. cbn beta. eapply adds_app; [|exact H]. unfold adds. rewrite bytes_cons, files_cons. cbn. f_equal; lia.
Qed.

Lemma fill_with_any k dir s c l w : (0 < k)%N -> fit_dir dir (w_tree w) -> wf_tree (w_tree w) ->
  effect k w (fill_with_files k dir s c l w) (fun n add => adds (0, 0) n add) any anye.
Proof.
  intros K Fd W. unfold fill_with_files, on_tree. destruct l as [l|e]; cbn [andthen]; [apply fill_sizes_any; auto|].
  exists []. cbn [world_of]. rewrite app_nil_r. split; [reflexivity|]. split; [exact W|]. split; [auto|exact I].
Qed.

Lemma times_any k dir (f : Z * Z -> world -> run (Z * Z)) :
  (forall n w, fit_dir dir (w_tree w) -> wf_tree (w_tree w) -> effect k w (f n w) (fun n' add => adds n n' add) any anye) ->
  forall j n w, fit_dir dir (w_tree w) -> wf_tree (w_tree w) -> effect k w (times j f n w) (fun n' add => adds n n' add) any anye.
Proof.
  intros F. induction j as [|j IH]; intros n w Fd W; cbn [times]; [apply effect_done; [exact W|apply adds_nil]|].
  eapply effect_bind; [apply F; auto| |auto|auto]. intros n' w' add T W' A. cbn beta.
  eapply effect_weaken; [apply IH; [rewrite T; apply fit_dir_grows; exact Fd|exact W']| |auto|auto]. intros n2 more B. eapply adds_app; eauto.
Qed.

Lemma plus_adds n m add : adds (0, 0) m add -> adds n (plus2 n m) add.
Proof. unfold adds, plus2. intros ->. cbn [fst snd]. f_equal; lia. Qed.

Lemma fill_files_any k dir ts tc : (0 < k)%N -> forall l n w, fit_dir dir (w_tree w) -> wf_tree (w_tree w) ->
  effect k w (fill_files k dir ts tc l n w) (fun n' add => adds n n' add) any anye.
Proof.
  intros K. induction l as [|[f [s c]] l IH]; intros n w Fd W; cbn [fill_files]; [apply effect_done; [exact W|apply adds_nil]|].
  destruct ((ts <? fst n) || (tc <? snd n)); [apply effect_done; [exact W|apply adds_nil]|].
  eapply effect_bind; [apply (times_any k dir); auto| |auto|auto].
  - clear n w Fd W. intros n w Fd W. eapply effect_bind; [apply fill_with_any; auto| |auto|auto].
    intros m w' add T W' A. cbn beta. apply effect_done; [exact W'|]. rewrite app_nil_r. apply plus_adds. exact A.
  - intros n' w' add T W' A. cbn beta. eapply effect_weaken; [apply IH; [rewrite T; apply fit_dir_grows; exact Fd|exact W']| |auto|auto].
    intros n2 more B. eapply adds_app; eauto.
Qed.

Lemma new_dir_fits out t : good_path out -> fit_dir out (t ++ [(out, NDir)]) \/ exists c, od_get out t = Some (NFile c).
Proof.
  intros G. unfold fit_dir, is_dir. destruct out as [|x o]; [left; auto|]. rewrite get_app. destruct (od_get (x :: o) t) as [[|c]|]; eauto.
  left. cbn [od_get]. rewrite streq_refl. auto.
Qed.

Lemma wf_once (t : tree) p v : wf_tree (t ++ [(p, v)]) -> od_get p t = None.
Proof.
  intros W. apply wf_nodup in W. unfold od_keys in W. rewrite map_app in W. cbn [map fst] in W. apply NoDup_remove_2 in W. rewrite app_nil_r in W.
  destruct (od_get p t) eqn:E; auto. apply od_get_some_key in E. contradiction.
Qed.

Lemma fill_dir_any k : (0 < k)%N -> forall d dir ts tc w, fit_dir dir (w_tree w) -> wf_tree (w_tree w) ->
  effect k w (fill_dir k d dir ts tc w) (fun n add => adds (0, 0) n add) any anye.
Proof.
  intros K. induction d as [s0 c0 r0 fs ds Hd] using dspec_all. intros dir ts tc w Fd W. rewrite fill_dir_eq.
  destruct ((ts <=? 0) || (tc <=? 0)); [apply effect_done; [exact W|apply adds_nil]|].
  destruct (distribute ts tc fs ds) as [[fsc scs]|e]; cbn [on_tree andthen fst snd].
  2:{ exists []. cbn [world_of]. rewrite app_nil_r. split; [reflexivity|]. split; [exact W|]. split; [auto|exact I]. }
  eapply effect_bind; [apply fill_files_any; auto| |auto|auto]. intros n w1 add T W1 A. cbn beta.
  assert (G : forall ds, Forall (fun d => forall dir ts tc w, fit_dir dir (w_tree w) -> wf_tree (w_tree w) ->
      effect k w (fill_dir k d dir ts tc w) (fun n add => adds (0, 0) n add) any anye) ds -> forall scs n w, fit_dir dir (w_tree w) -> wf_tree (w_tree w) ->
      effect k w (fill_subs k dir ts tc ds scs n w) (fun n' add => adds n n' add) any anye).
  { clear -K. induction ds as [|d ds IH]; intros HD scs n w Fd W; cbn [fill_subs]; [apply effect_done; [exact W|apply adds_nil]|].
    inversion HD as [|? ? Hd HD']; subst. destruct scs as [|[s c] scs]; [apply effect_done; [exact W|apply adds_nil]|].
    destruct ((ts <? fst n) || (tc <? snd n)); [apply effect_done; [exact W|apply adds_nil]|].
    eapply effect_bind; [apply (times_any k dir); auto| |auto|auto].
    - clear n w Fd W. intros n w Fd W. unfold fill_sub. destruct ((ts <? fst n) || (tc <? snd n)); [apply effect_done; [exact W|apply adds_nil]|].
      eapply effect_bind; [apply create_dir_effect; auto| |intros; exact I|intros; exact I]. intros sub w1 add T W1 (-> & G & _). cbn beta.
      assert (Fs : fit_dir sub (w_tree w1)).
      { rewrite T in *. destruct (new_dir_fits sub (w_tree w) G) as [H|(c' & H)]; [exact H|]. rewrite (wf_once _ _ _ W1) in H. discriminate. }
      eapply effect_bind; [apply Hd; auto| |intros; exact I|intros; exact I]. intros m w2 add2 T2 W2 A2. cbn beta. apply effect_done; [exact W2|].
      rewrite app_nil_r. apply plus_adds. unfold adds in *. rewrite A2. cbn [app]. rewrite bytes_cons, files_cons. cbn. f_equal; lia.
    - intros n' w' add T W' A. cbn beta. eapply effect_weaken; [apply IH; [exact HD'|rewrite T; apply fit_dir_grows; exact Fd|exact W']| |auto|auto].
      intros n2 more B. eapply adds_app; eauto. }
  eapply effect_weaken; [apply G; [exact Hd|rewrite T; apply fit_dir_grows; exact Fd|exact W1]| |auto|auto]. intros n2 more B. eapply adds_app; eauto.
Qed.
