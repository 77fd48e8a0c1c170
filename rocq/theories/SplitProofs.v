(** * Proofs about the splitting algorithms *)

Require Import String NArith PeanoNat Bool List Lia Permutation Sorted.
From Verif Require Import PyBase PyFacts Fs FsFacts Split.
Import ListNotations.
Open Scope N_scope.

(** ** Groups of files *)

(** Total size of a group of files, and the manifest that describes it. *)
Fixpoint total (g : list finfo) : N :=
  match g with [] => 0 | f :: t => f_size f + total t end.
Definition man_of (g : list finfo) : manifest :=
  {| m_name := None; m_contents := map (fun f => skipn 1 (f_path f)) g; m_total := total g |}.

Lemma total_app a b : total (a ++ b) = total a + total b.
Proof. induction a as [|x a IH]; cbn; [reflexivity|]. rewrite IH. lia. Qed.

Lemma total_snoc a x : total (a ++ [x]) = total a + f_size x.
Proof. rewrite total_app. cbn. lia. Qed.

Lemma total_in x g : In x g -> f_size x <= total g.
Proof. induction g as [|y g IH]; cbn; [easy|]. intros [->|H]; [lia|]. specialize (IH H). lia. Qed.

Lemma total_perm a b : Permutation a b -> total a = total b.
Proof. induction 1; cbn; lia. Qed.

Lemma total_concat gs : total (concat gs) = fold_right N.add 0 (map total gs).
Proof. induction gs as [|g gs IH]; cbn; [reflexivity|]. rewrite total_app, IH. reflexivity. Qed.

Lemma new_manifest_of : new_manifest = man_of [].
Proof. reflexivity. Qed.

Lemma add_man_of f g : add_to_manifest f (man_of g) = man_of (g ++ [f]).
Proof.
  unfold add_to_manifest, man_of; cbn. rewrite map_app, total_snoc. reflexivity.
Qed.

Lemma man_of_contents_nil g : m_contents (man_of g) = [] <-> g = [].
Proof. unfold man_of; cbn. destruct g; cbn; split; intros H; solve [reflexivity | discriminate H]. Qed.

(** ** The well-packed algorithm *)

Section WellPacked.
Variable s : splitter.

(** [c] was closed while the files [later] were still unplaced. *)
Fixpoint tight (cs : list (list finfo)) (R : list finfo) : Prop :=
  match cs with
  | [] => True
  | c :: c2 => (total c <= s_target s -> Forall (fun g => s_max s < total c + f_size g) (concat c2 ++ R))
               /\ tight c2 R
  end.

Lemma tight_perm cs R R' : Permutation R R' -> tight cs R -> tight cs R'.
Proof.
  intros HP. induction cs as [|c cs IH]; cbn; [easy|]. intros [H1 H2]. split; [|auto].
  intros Ht. specialize (H1 Ht). rewrite Forall_forall in *. intros g Hg. apply H1.
  rewrite in_app_iff in *. destruct Hg as [|Hg]; [auto|]. right.
  apply (Permutation_in g (Permutation_sym HP)). exact Hg.
Qed.

Lemma tight_snoc cs c R :
  tight cs (c ++ R) ->
  (total c <= s_target s -> Forall (fun g => s_max s < total c + f_size g) R) ->
  tight (cs ++ [c]) R.
Proof.
  intros H Hc. induction cs as [|d cs IH]; cbn in *.
  - auto.
  - destruct H as [H1 H2]. split; [|auto].
    intros Ht. rewrite concat_app. cbn. rewrite app_nil_r, <- app_assoc. auto.
Qed.

Definition closed_ok (c : list finfo) : Prop :=
  exists c' x, c = c' ++ [x] /\ total c' <= s_target s /\ total c' <= s_max s /\
               (total c <= s_max s \/ (total c' = 0 /\ s_max s < f_size x)).

Definition desc (l : list finfo) : Prop := StronglySorted (fun a b => f_size b <= f_size a) l.

Definition small_or_single (c : list finfo) : Prop :=
  total c <= s_max s \/ exists x, c = [x] /\ s_max s < f_size x.

Record wp_inv (all : list finfo) (w : wp_state) (cs : list (list finfo)) (cur : list finfo) : Prop := {
  wi_manf : w_manf w = man_of cur;
  wi_done : w_done w = map man_of cs;
  wi_perm : Permutation (concat cs ++ cur ++ w_pre w ++ w_rest w) all;
  wi_cur : cur = [] -> w_pre w = [];
  wi_nonempty : Forall (fun c => c <> []) cs;
  wi_cmax : total cur <= s_max s;
  wi_ctgt : total cur <= s_target s;
  wi_pre : Forall (fun g => s_max s < total cur + f_size g) (w_pre w);
  wi_closed : Forall closed_ok cs;
  wi_tight : tight cs (cur ++ w_pre w ++ w_rest w);
  wi_desc : desc all ->
            desc (w_pre w ++ w_rest w) /\
            (cur <> [] -> total cur = 0 -> Forall (fun g => f_size g = 0) (w_pre w ++ w_rest w)) /\
            Forall small_or_single cs
}.

Lemma desc_app_remove a x b : desc (a ++ x :: b) -> desc (a ++ b).
Proof.
  unfold desc. induction a as [|y a IH]; cbn; intros H.
  - inversion H; assumption.
  - inversion H as [|? ? H1 H2]; subst. constructor; [auto|].
    rewrite Forall_forall in *. intros z Hz. apply H2. rewrite in_app_iff in *. cbn. tauto.
Qed.

Lemma wp_step_inv_rest all f rest w cs cur :
  wp_inv all w cs cur -> w_rest w = f :: rest ->
  exists cs' cur', wp_inv all (wp_step s w) cs' cur'.
Proof.
  intros I Hr. destruct I as [Im Id Ip Ic In_ Icm Ict Ipre Icl Iti Ide].
  unfold wp_step. rewrite Hr, Hr, Im. change (m_total (man_of cur)) with (total cur).
  rewrite Hr in Ip, Iti, Ide.
  assert (HPm : forall c, Permutation ((c ++ [f]) ++ w_pre w ++ rest) (c ++ w_pre w ++ f :: rest)).
  { intros c. rewrite <- app_assoc. apply Permutation_app_head. cbn. apply Permutation_middle. }
  destruct (s_max s <? total cur + f_size f) eqn:Emax;
    [apply N.ltb_lt in Emax | apply N.ltb_ge in Emax].
  - destruct (total cur =? 0) eqn:E0; [apply N.eqb_eq in E0 | apply N.eqb_neq in E0].
    + (* oversize file *)
      exists (cs ++ [cur ++ [f]]), []. constructor; cbn [w_manf w_done w_pre w_rest].
      * reflexivity.
      * rewrite Id, add_man_of, map_app. reflexivity.
      * rewrite concat_app. cbn [concat]. rewrite app_nil_r, <- Ip. cbn.
        rewrite <- app_assoc. apply Permutation_app_head. apply HPm.
      * auto.
      * apply Forall_app. split; [exact In_|]. constructor; [destruct cur; discriminate|constructor].
      * cbn; lia.
      * cbn; lia.
      * constructor.
      * apply Forall_app. split; [exact Icl|]. constructor; [|constructor].
        exists cur, f. rewrite total_snoc. repeat split; auto; [lia..|]. right. split; [exact E0|lia].
      * cbn. apply tight_snoc.
        { eapply tight_perm; [|exact Iti]. symmetry. apply HPm. }
        intros _. apply Forall_forall. intros g _. rewrite total_snoc. lia.
      * intros Hd. destruct (Ide Hd) as (D1 & D2 & D3). cbn.
        split; [eapply desc_app_remove; exact D1|]. split; [intros X; congruence|].
        apply Forall_app. split; [exact D3|]. constructor; [|constructor].
        destruct cur as [|y cur].
        { right. exists f. split; [reflexivity|]. cbn in Emax. lia. }
        { exfalso. specialize (D2 ltac:(discriminate) E0). apply Forall_app in D2 as [_ D2].
          inversion D2; subst. rewrite E0 in Emax. lia. }
    + exists cs, cur. constructor; cbn [w_manf w_done w_pre w_rest].
      * reflexivity.
      * exact Id.
      * rewrite <- Ip. rewrite <- (app_assoc (w_pre w)). reflexivity.
      * intros ->. cbn in E0. congruence.
      * exact In_.
      * exact Icm.
      * exact Ict.
      * apply Forall_app. split; [exact Ipre|]. constructor; [exact Emax|constructor].
      * exact Icl.
      * rewrite <- (app_assoc (w_pre w)). exact Iti.
      * intros Hd. rewrite <- (app_assoc (w_pre w)). apply (Ide Hd).
  - assert (HD : desc all -> desc (w_pre w ++ rest) /\
             (total (cur ++ [f]) = 0 -> Forall (fun g => f_size g = 0) (w_pre w ++ rest)) /\
             Forall small_or_single cs).
    { intros Hd. destruct (Ide Hd) as (D1 & D2 & D3).
      split; [eapply desc_app_remove; exact D1|]. split; [|exact D3].
      intros H0. rewrite total_snoc in H0. destruct cur as [|y cur].
      - rewrite (Ic eq_refl) in *. cbn in *. inversion D1 as [|? ? _ D]; subst.
        rewrite Forall_forall in *. intros g Hg. specialize (D g Hg). lia.
      - specialize (D2 ltac:(discriminate) ltac:(lia)).
        apply Forall_app in D2 as [D2a D2b]. inversion D2b; subst. apply Forall_app. auto. }
    destruct (s_target s <? total cur + f_size f) eqn:Et;
      [apply N.ltb_lt in Et | apply N.ltb_ge in Et].
    + exists (cs ++ [cur ++ [f]]), []. constructor; cbn [w_manf w_done w_pre w_rest].
      * reflexivity.
      * rewrite Id, add_man_of, map_app. reflexivity.
      * rewrite concat_app. cbn [concat]. rewrite app_nil_r, <- Ip. cbn.
        rewrite <- app_assoc. apply Permutation_app_head. apply HPm.
      * auto.
      * apply Forall_app. split; [exact In_|]. constructor; [destruct cur; discriminate|constructor].
      * cbn; lia.
      * cbn; lia.
      * constructor.
      * apply Forall_app. split; [exact Icl|]. constructor; [|constructor].
        exists cur, f. rewrite total_snoc. repeat split; auto.
      * cbn. apply tight_snoc.
        { eapply tight_perm; [|exact Iti]. symmetry. apply HPm. }
        intros H. rewrite total_snoc in H. lia.
      * intros Hd. destruct (HD Hd) as (D1 & D2 & D3). cbn.
        split; [exact D1|]. split; [intros X; congruence|].
        apply Forall_app. split; [exact D3|]. constructor; [|constructor].
        left. rewrite total_snoc. exact Emax.
    + exists cs, (cur ++ [f]). constructor; cbn [w_manf w_done w_pre w_rest].
      * apply add_man_of.
      * exact Id.
      * rewrite <- Ip. apply Permutation_app_head. apply HPm.
      * intros H. destruct cur; discriminate H.
      * exact In_.
      * rewrite total_snoc. exact Emax.
      * rewrite total_snoc. exact Et.
      * rewrite Forall_forall in *. intros g Hg. rewrite total_snoc. specialize (Ipre g Hg). lia.
      * exact Icl.
      * eapply tight_perm; [|exact Iti]. symmetry. apply HPm.
      * intros Hd. destruct (HD Hd) as (D1 & D2 & D3).
        split; [exact D1|]. split; [intros _; exact D2|exact D3].
Qed.

(** Restarting at the front with a new manifest. *)
Definition wp_flush (w : wp_state) : wp_state :=
  {| w_pre := []; w_rest := w_pre w; w_manf := new_manifest; w_done := w_done w ++ [w_manf w] |}.

Lemma wp_step_flush w : w_rest w = [] -> w_pre w <> [] -> wp_step s w = wp_step s (wp_flush w).
Proof.
  intros H Hn. unfold wp_step. rewrite H. unfold wp_flush. cbn.
  destruct (w_pre w); [congruence|]. reflexivity.
Qed.

Lemma wp_flush_inv all w cs cur :
  wp_inv all w cs cur -> w_rest w = [] -> w_pre w <> [] ->
  wp_inv all (wp_flush w) (cs ++ [cur]) [].
Proof.
  intros I Hr Hp. destruct I as [Im Id Ip Ic In_ Icm Ict Ipre Icl Iti Ide].
  assert (Hcur : cur <> []) by (intros E; apply Hp; auto).
  rewrite Hr, app_nil_r in *.
  unfold wp_flush. constructor; cbn [w_manf w_done w_pre w_rest].
  - reflexivity.
  - rewrite Id, Im, map_app. reflexivity.
  - rewrite concat_app. cbn [concat app]. rewrite app_nil_r, <- app_assoc. exact Ip.
  - auto.
  - apply Forall_app. split; [exact In_|]. constructor; [exact Hcur|constructor].
  - cbn; lia.
  - cbn; lia.
  - constructor.
  - apply Forall_app. split; [exact Icl|]. constructor; [|constructor].
    destruct (exists_last Hcur) as (c' & x & ->). exists c', x.
    rewrite total_snoc in *. repeat split; [lia|lia|left; lia].
  - cbn. apply tight_snoc; [exact Iti|]. intros _. exact Ipre.
  - intros Hd. destruct (Ide Hd) as (D1 & D2 & D3). cbn.
    split; [exact D1|]. split; [intros X; congruence|].
    apply Forall_app. split; [exact D3|]. constructor; [|constructor]. left. exact Icm.
Qed.

Lemma wp_step_inv all w cs cur :
  wp_inv all w cs cur -> w_pre w ++ w_rest w <> [] ->
  exists cs' cur', wp_inv all (wp_step s w) cs' cur'.
Proof.
  intros I H. destruct (w_rest w) as [|f rest] eqn:Hr.
  - rewrite app_nil_r in H. rewrite wp_step_flush by assumption.
    pose proof (wp_flush_inv _ _ _ _ I Hr H) as I'.
    destruct (w_pre w) as [|f rest] eqn:Hp; [congruence|].
    eapply wp_step_inv_rest with (f := f) (rest := rest); [exact I'|]. unfold wp_flush. cbn. exact Hp.
  - eapply wp_step_inv_rest; eassumption.
Qed.

Lemma wp_start_inv all : wp_inv all (wp_start all) [] [].
Proof.
  constructor; cbn; auto; try lia; try constructor; auto; constructor; try easy.
Qed.

Lemma wp_loop_inv all fuel : forall w w' cs cur,
  wp_inv all w cs cur -> wp_loop s fuel w = Some w' ->
  w_pre w' ++ w_rest w' = [] /\ exists cs' cur', wp_inv all w' cs' cur'.
Proof.
  induction fuel as [|n IH]; intros w w' cs cur I H; cbn in H;
    destruct (w_pre w ++ w_rest w) as [|f fs] eqn:E.
  - injection H as <-. eauto.
  - discriminate.
  - injection H as <-. eauto.
  - destruct (wp_step_inv _ _ _ _ I) as (cs' & cur' & I'); [congruence|]. eapply IH; eassumption.
Qed.

(** Termination. *)
Definition wp_measure (w : wp_state) : nat :=
  (length (w_pre w ++ w_rest w) * S (length (w_pre w ++ w_rest w)) + length (w_rest w))%nat.

Lemma wp_step_measure_rest w f rest : w_rest w = f :: rest ->
  (wp_measure (wp_step s w) < wp_measure w)%nat.
Proof.
  intros Hr. unfold wp_step. rewrite Hr, Hr. unfold wp_measure.
  rewrite Hr, app_length. cbn [length].
  destruct (s_max s <? _).
  - destruct (m_total (w_manf w) =? 0); cbn [w_pre w_rest]; rewrite ?app_length; cbn [length]; nia.
  - destruct (s_target s <? _); cbn [w_pre w_rest]; rewrite ?app_length; cbn [length]; nia.
Qed.

(** After a flush a file is placed in the same step. *)
Lemma wp_step_places w f rest : w_rest w = f :: rest -> w_pre w = [] -> m_total (w_manf w) = 0 ->
  length (w_pre (wp_step s w) ++ w_rest (wp_step s w)) = length rest.
Proof.
  intros Hr Hp H0. unfold wp_step. rewrite Hr, Hr, Hp, H0. cbn [N.eqb N.add app].
  destruct (s_max s <? _); [reflexivity|]. destruct (s_target s <? _); reflexivity.
Qed.

Lemma wp_step_measure w : w_pre w ++ w_rest w <> [] ->
  (wp_measure (wp_step s w) < wp_measure w)%nat.
Proof.
  intros H. destruct (w_rest w) as [|f rest] eqn:Hr.
  - rewrite app_nil_r in H. rewrite wp_step_flush by assumption.
    destruct (w_pre w) as [|f rest] eqn:Hp; [congruence|].
    pose proof (wp_step_places (wp_flush w) f rest Hp eq_refl eq_refl) as HL.
    unfold wp_measure. rewrite HL, Hp, Hr, app_nil_r. cbn [length].
    assert (length (w_rest (wp_step s (wp_flush w))) <= length rest)%nat.
    { rewrite <- HL, app_length. lia. }
    nia.
  - eapply wp_step_measure_rest; eassumption.
Qed.

Lemma wp_loop_total fuel : forall w, (wp_measure w <= fuel)%nat -> exists w', wp_loop s fuel w = Some w'.
Proof.
  induction fuel as [|n IH]; intros w H; cbn; destruct (w_pre w ++ w_rest w) as [|f fs] eqn:E; eauto.
  - unfold wp_measure in H. rewrite E in H. cbn in H. lia.
  - apply IH. pose proof (wp_step_measure w) as M. rewrite E in M. specialize (M ltac:(discriminate)). lia.
Qed.

Lemma wp_loop_more fuel : forall fuel' w w', (fuel <= fuel')%nat ->
  wp_loop s fuel w = Some w' -> wp_loop s fuel' w = Some w'.
Proof.
  induction fuel as [|n IH]; intros fuel' w w' H; cbn.
  - destruct (w_pre w ++ w_rest w) eqn:E; [|discriminate].
    destruct fuel'; cbn; rewrite E; auto.
  - destruct fuel' as [|m]; [lia|]. cbn.
    destruct (w_pre w ++ w_rest w); [auto|]. apply IH. lia.
Qed.

Lemma well_packed_spec fs :
  (forall fuel, (S (length fs) * S (length fs) <= fuel)%nat ->
     well_packed_in s fuel fs = Some (well_packed s fs)) /\
  exists cs, well_packed s fs = map man_of cs /\ Permutation (concat cs) fs /\
    Forall (fun c => c <> []) cs /\ Forall closed_ok cs /\ tight cs [] /\
    (desc fs -> Forall small_or_single cs).
Proof.
  destruct (wp_loop_total (S (length fs) * S (length fs)) (wp_start fs)) as [w Hw].
  { unfold wp_measure, wp_start. cbn [w_pre w_rest app]. nia. }
  assert (HE : well_packed s fs = wp_finish w).
  { unfold well_packed, well_packed_in. rewrite Hw. reflexivity. }
  split.
  { intros fuel H. rewrite HE. unfold well_packed_in.
    rewrite (wp_loop_more _ _ _ _ H Hw). reflexivity. }
  rewrite HE.
  destruct (wp_loop_inv fs _ _ _ _ _ (wp_start_inv fs) Hw) as (E & cs & cur & I).
  destruct I as [Im Id Ip Ic In_ Icm Ict Ipre Icl Iti Ide].
  rewrite E in Ip, Iti, Ide. rewrite app_nil_r in *.
  unfold wp_finish. rewrite Im, Id.
  destruct (m_contents (man_of cur)) as [|p ps] eqn:Ec.
  - apply man_of_contents_nil in Ec. subst cur. rewrite app_nil_r in Ip. exists cs.
    do 5 (split; [assumption || reflexivity|]). intros Hd. apply (Ide Hd).
  - assert (Hcur : cur <> []) by (intros ->; discriminate Ec).
    exists (cs ++ [cur]). split; [rewrite map_app; reflexivity|].
    split; [rewrite concat_app; cbn; rewrite app_nil_r; exact Ip|].
    split; [apply Forall_app; auto|].
    split.
    { apply Forall_app. split; [exact Icl|]. constructor; [|constructor].
      destruct (exists_last Hcur) as (c' & x & ->). exists c', x.
      rewrite total_snoc in *. repeat split; [lia|lia|left; lia]. }
    split.
    { apply tight_snoc; [rewrite app_nil_r; exact Iti|]. constructor. }
    intros Hd. destruct (Ide Hd) as (_ & _ & D3). apply Forall_app. split; [exact D3|].
    constructor; [left; exact Icm|constructor].
Qed.

End WellPacked.
