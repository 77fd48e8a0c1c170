(** Proofs about conversions that are made again *)
Require Import String NArith PeanoNat Bool List Lia.
From Verif Require Import PyBase PyFacts Version Tsv TsvProofs Fs FsFacts HeadBag HeadBagProofs HeadBagProofs2 HeadBagProofs3 BagIt BagItProofs Split SplitApply SplitApplyProofs SplitApplyProofs5 SplitApplyProofs8 Restore RestoreProofs RestoreProofs2 RestoreProofs3 RestoreProofs4 RestoreProofs6 RestoreProofs7 RestoreProofs8 RestoreProofs9 RestoreProofs10 Props_Restore Props_Restore3 Amend AmendProofs AmendProofs2 AmendProofs3 AmendProofs4 Props_SplitApply Props_Amend SingleProofs AmendTotalProofs SingleTotalProofs AgainProofs Reconvert.
Import ListNotations.
Open Scope N_scope.

(** A bag that can be converted: nothing stands in the way of what is written. *)
Record ready (v : env) (algs : list pystr) (td : pystr) (t : tree) : Prop := {
  rd_bag : bag_files t;
  rd_dir : good_path td;
  rd_out : outside_payload td;
  rd_unsaved : ~ saved_file td;
  rd_tagdir : tagdir_ok t td;
  rd_save : savable v algs t;
  rd_lists : Forall (good_name v) [F_baginfo; sjoin td F_members; sjoin td F_lookup]
}.

Section Reconvert.
Variables (v : env) (algs : list pystr) (td : pystr) (t0 : tree) (i0 : infod).
Hypothesis Hs : sane v.
Hypothesis Hg : good_hash v.
Hypothesis Hi : incl algs (e_algos v).
Hypothesis Ht : tag_value_ok Codecs td.

(** Tags that the first attempt may have left. *)
Definition alike (j : infod) : Prop :=
  (forall k, ~ In k info_keys -> Forall (tag_value_ok Codecs) (tag_values i0 k) ->
     tag_values j k = tag_values i0 k) /\
  (Forall (tag_value_ok Codecs) (tag_values i0 T_ISD) ->
     Forall (tag_value_ok Codecs) (tag_values j T_ISD) /\
     with_about (tag_values j T_ISD) = with_about (tag_values i0 T_ISD)).

(** Files that it may have left. *)
Record rest (t : tree) : Prop := {
  r_room : ready v algs td t;
  r_rest : forall q, ~ saved_file q -> q <> td -> q <> sjoin td F_members -> q <> sjoin td F_lookup -> od_get q t = od_get q t0;
  r_tags : exists j, tags_of Codecs t = Ok j /\ AmendTotalProofs.no_bom j /\ tag_dir_raw j = Ok td /\ older_than_03 (profile_version j) = false /\ alike j
}.

Lemma td_not_data : outside_payload td -> td <> DATA.
Proof. intros O ->. discriminate O. Qed.

Lemma saved_not_data q : saved_file q -> q <> DATA.
Proof. intros [->|[a ->]]; discriminate. Qed.

Lemma rest_change q t t' : rest t -> wf_tree t' -> (forall p, p <> q -> od_get p t' = od_get p t) ->
  q = td \/ q = sjoin td F_members \/ q = sjoin td F_lookup \/ saved_file q ->
  (q = td -> od_get td t = None /\ od_get td t' = Some NDir) ->
  (q <> td -> is_dir q t = false /\ is_dir q t' = false) ->
  (forall a c, q = man_name K_tag a -> In a (e_algos v) -> read q t' = Some c ->
     good_man false c /\ forall h p, In (h, p) (manifest_lines IoText (skip_bom c)) -> e_danger v (e_dest v) p = false) ->
  (q = F_baginfo -> exists j, tags_of Codecs t' = Ok j /\ AmendTotalProofs.no_bom j /\ tag_dir_raw j = Ok td /\ older_than_03 (profile_version j) = false /\ alike j) ->
  rest t'.
Proof.
  intros [[Bf G O Ns Tt Sv Gn] Rest Tags] W X Q Q1 Q2 Qm Qi.
  assert (Ne : forall f, f <> [] -> sjoin td f <> td) by (intros f Hf; apply sjoin_ne; exact Hf).
  assert (Qd : q <> DATA).
  { destruct Q as [->|[->|[->|Q]]].
    - apply td_not_data. exact O.
    - intros E. pose proof (outside_file td F_members O ltac:(cbn; auto)) as P. unfold sjoin in E. 
      assert (I : In SLASH DATA) by (rewrite <- E; apply in_or_app; right; left; reflexivity). cbn in I. intuition discriminate.
    - intros E. assert (I : In SLASH DATA) by (rewrite <- E; unfold sjoin; apply in_or_app; right; left; reflexivity). cbn in I. intuition discriminate.
    - apply saved_not_data. exact Q. }
  assert (Tt' : tagdir_ok t' td).
  { destruct Tt as [Td Tf]. split.
    - destruct (streq_reflect q td) as [E|E].
      + left. destruct (Q1 E) as [_ E']. unfold is_dir. destruct td; [reflexivity|]. rewrite E'. reflexivity.
      + destruct (Q2 E) as [D1 D2]. destruct Td as [Td|[Te Tp]].
        * left. rewrite (is_dir_same td q t t' X) by congruence. exact Td.
        * right. split.
          -- unfold exists_, is_file in *. rewrite (is_dir_same td q t t' X) by congruence. rewrite X by congruence. exact Te.
          -- destruct (streq_reflect (dirname td) q) as [E'|E']; [rewrite E' in Tp; congruence|].
             rewrite (is_dir_same _ q t t' X) by exact E'. exact Tp.
    - intros f If. destruct (streq_reflect (sjoin td f) q) as [E|E].
      + rewrite E. apply Q2. intros E'. rewrite E' in E. revert E. apply Ne. cbn in If. destruct If as [<-|[<-|[<-|[]]]]; discriminate.
      + rewrite (is_dir_same _ q t t' X) by exact E. apply Tf. exact If. }
  constructor.
  - constructor; auto.
    + split; [exact W|]. unfold is_file. rewrite X by congruence. exact (proj2 Bf).
    + destruct Sv as [_ (c0 & v1 & Rb & V0) Gm Nm Bi Nd].
      assert (Qj : forall p, p = F_bagit \/ p = F_baginfo \/ (exists k a, In k [K_man; K_tag] /\ In a (e_algos v) /\ p = man_name k a) ->
                 p = q -> q = td \/ saved_file q).
      { intros p P E. destruct Q as [Q|[Q|[Q|Q]]]; auto; exfalso; apply (top_not_join v algs td F_members p) in P as P1; auto;
          apply (top_not_join v algs td F_lookup p) in P as P2; auto; congruence. }
      constructor; auto.
      * exists c0, v1. split; [|exact V0]. unfold read in *. rewrite X; [exact Rb|]. intros E.
        destruct (Qj F_bagit ltac:(auto) E) as [E'|[E'|[a E']]].
        -- destruct (Q1 E') as [E1 _]. rewrite <- E', <- E in E1. rewrite E1 in Rb. discriminate Rb.
        -- rewrite <- E in E'. discriminate E'.
        -- rewrite <- E in E'. discriminate E'.
      * intros pay a c Ia R. destruct (streq_reflect (man_name (kind_of pay) a) q) as [E|E].
        -- destruct (Qj (man_name (kind_of pay) a)) as [E'|[E'|[b E']]].
           ++ right; right. exists (kind_of pay), a. split; [destruct pay; cbn; auto|auto].
           ++ exact E.
           ++ destruct (Q1 E') as [_ E1]. unfold read in R. rewrite E, E', E1 in R. discriminate R.
           ++ rewrite <- E in E'. destruct pay; discriminate E'.
           ++ destruct pay; cbn [kind_of] in *.
              { exfalso. rewrite <- E in E'. revert E'. apply man_tag_differ. }
              apply (Qm a c); auto. rewrite <- E. exact R.
        -- apply (Gm pay a c Ia). unfold read in *. rewrite X in R by exact E. exact R.
      * intros p F T1 T2. destruct (streq_reflect p q) as [E|E].
        -- subst p. rewrite Forall_forall in Gn. destruct Q as [Q|[Q|[Q|[Q|[a Q]]]]].
           ++ destruct (Q1 Q) as [_ E1]. unfold is_file in F. rewrite Q, E1 in F. discriminate F.
           ++ apply Gn. rewrite Q. cbn. auto.
           ++ apply Gn. rewrite Q. cbn. auto.
           ++ apply Gn. rewrite Q. cbn. auto.
           ++ rewrite Q, man_is_tagman in T2. discriminate T2.
        -- apply Nm; auto. unfold is_file in *. rewrite X in F by exact E. exact F.
      * destruct (streq_reflect F_baginfo q) as [E|E]; [|rewrite X by exact E; exact Bi].
        intros E1. assert (E2 : q <> td) by (intros E'; apply Ns; left; congruence).
        destruct (Q2 E2) as [_ D2]. unfold is_dir in D2. rewrite <- E, E1 in D2. discriminate D2.
      * intros a Ia. destruct (streq_reflect (man_name K_tag a) q) as [E|E]; [|rewrite X by exact E; apply Nd; exact Ia].
        intros E1. assert (E2 : q <> td) by (intros E'; apply Ns; right; exists a; congruence).
        destruct (Q2 E2) as [_ D2]. unfold is_dir in D2. rewrite <- E, E1 in D2. discriminate D2.
  - intros p P1 P2 P3 P4. rewrite X; [apply Rest; auto|]. intros ->. destruct Q as [Q|[Q|[Q|Q]]]; auto.
  - destruct (streq_reflect q F_baginfo) as [E|E]; [apply Qi; exact E|].
    destruct Tags as (j & J & J'). exists j. split; [|exact J'].
    unfold tags_of in *. change (U "bag-info.txt") with F_baginfo in *. unfold read in *. rewrite X by congruence. exact J.
Qed.

(** ** One step after another *)

Definition holds_on (s : step) : Prop := forall t t', rest t -> s t = Ok t' -> rest t'.

Lemma rest_wf t : rest t -> wf_tree t.
Proof. intros [[[W _] _ _ _ _ _ _] _ _]. exact W. Qed.

Lemma rk_del f t : In f [F_members; F_lookup] -> rest t -> is_file (sjoin td f) t = true -> rest (od_del (sjoin td f) t).
Proof.
  intros If L F. pose proof (rest_wf t L) as W. pose proof (wf_nodup t W) as D.
  assert (N0 : sjoin td f <> td) by (apply sjoin_ne; cbn in If; destruct If as [<-|[<-|[]]]; discriminate).
  assert (Ng : od_get (sjoin td f) (od_del (sjoin td f) t) = None) by (apply od_get_del_same; exact D).
  assert (Nn : sjoin td f <> []) by (unfold sjoin; destruct td; discriminate).
  apply (rest_change (sjoin td f) t); auto.
  - apply wf_del; auto.
  - intros p P. apply od_get_del_other. exact P.
  - cbn in If. destruct If as [<-|[<-|[]]]; auto.
  - intros E. contradiction.
  - intros _. split.
    + destruct (is_dir (sjoin td f) t) eqn:E; [|reflexivity]. exfalso. apply Nn. exact (file_or_not _ _ F E).
    + unfold is_dir. rewrite Ng. destruct (sjoin td f); [congruence|reflexivity].
  - intros a c _ _ R. unfold read in R. rewrite Ng in R. discriminate R.
  - intros E. exfalso. apply (tagfile_not_saved td f If). left. exact E.
Qed.

Lemma rk_ensure : holds_on (ensure_step td).
Proof.
  intros t t' L H. unfold ensure_step in H. destruct (exists_ td t) eqn:Ex; [injection H as <-; exact L|].
  unfold mkdir in H. rewrite Ex in H. destruct (is_dir (dirname td) t) eqn:Ed; [|discriminate H]. injection H as <-.
  pose proof (exists_false td t Ex) as [Nt _]. pose proof (rest_wf t L) as W.
  assert (G : good_path td) by apply L. assert (Ns : ~ saved_file td) by apply L.
  apply (rest_change td t); auto.
  - apply wf_set; auto.
  - intros p P. apply od_get_set_other. exact P.
  - intros _. split; [exact Nt|apply od_get_set_same].
  - intros E. contradiction.
  - intros a c E. exfalso. apply Ns. right. exists a. exact E.
  - intros E. exfalso. apply Ns. left. exact E.
Qed.

Lemma rk_clear : holds_on (clear_step td).
Proof.
  intros t t' L H. unfold clear_step in H. destruct (exists_ (sjoin td F_lookup) t); [|injection H as <-; exact L].
  unfold remove_file in H. destruct (is_file (sjoin td F_lookup) t) eqn:F; [|discriminate H]. injection H as <-. apply rk_del; auto. cbn; auto.
Qed.

Lemma rk_put f c : In f [F_members; F_lookup] -> holds_on (write_file (sjoin td f) c).
Proof.
  intros If t t' L H. pose proof (rest_wf t L) as W. pose proof (write_file_ok2 _ _ _ _ H) as (-> & D1 & D2).
  assert (N0 : sjoin td f <> td) by (apply sjoin_ne; cbn in If; destruct If as [<-|[<-|[]]]; discriminate).
  assert (Nn : sjoin td f <> []) by (unfold sjoin; destruct td; discriminate).
  assert (G : good_path td) by apply L.
  pose proof (od_get_set_same (sjoin td f) (NFile c) t) as Ng.
  apply (rest_change (sjoin td f) t); auto.
  - apply wf_set; auto. apply good_listfile; auto.
  - intros p Pp. apply od_get_set_other. exact Pp.
  - cbn in If. destruct If as [<-|[<-|[]]]; auto.
  - intros E. contradiction.
  - intros _. split; [exact D1|]. unfold is_dir. rewrite Ng. destruct (sjoin td f); [congruence|reflexivity].
  - intros a c0 E. exfalso. apply (tagfile_not_saved td f If). right. exists a. exact E.
  - intros E. exfalso. apply (tagfile_not_saved td f If). left. exact E.
Qed.

Lemma rk_tagman a : In a algs -> holds_on (fun t => write_file (man_name K_tag a) (tagmanifest v a t) t).
Proof.
  intros Ia t t' L H. pose proof (rest_wf t L) as W. pose proof (write_file_ok2 _ _ _ _ H) as (-> & D1 & D2).
  pose proof (od_get_set_same (man_name K_tag a) (NFile (tagmanifest v a t)) t) as Ng.
  assert (Ns : ~ saved_file td) by apply L.
  assert (Gn : forall p, In p (tag_files t) -> good_name v p).
  { intros p Ip. apply tag_files_in in Ip; [|apply wf_nodup; exact W]. destruct Ip as (A1 & A2 & A3).
    destruct L as [[_ _ _ _ _ Sv _] _ _]. apply (sv_names _ _ _ Sv); auto. }
  apply (rest_change (man_name K_tag a) t); auto.
  - apply wf_set; auto. apply man_good; [cbn; auto|]. apply Hs, Hi, Ia.
  - intros p Pp. apply od_get_set_other. exact Pp.
  - right; right; right. right. exists a. reflexivity.
  - intros E. exfalso. apply Ns. right. exists a. congruence.
  - intros _. split; [exact D1|]. unfold is_dir. rewrite Ng. reflexivity.
  - intros b c E Ib R. apply man_name_inj in E. subst b. unfold read in R. rewrite Ng in R. injection R as <-.
    split; [apply tagmanifest_good; auto; apply wf_nodup; exact W|].
    rewrite (tagmanifest_lines v a t IoText Hg) by (intros p Ip; apply Gn in Ip; apply Ip).
    intros h p Ip. unfold tag_list in Ip. apply in_map_iff in Ip. destruct Ip as (q & E & Ip). inversion E; subst. apply Gn in Ip. apply Ip.
  - intros E. discriminate E.
Qed.

Lemma rk_info (i : tree -> infod) : (forall t, exists j, load_tags Codecs (info_text (i t)) = Ok j /\
    AmendTotalProofs.no_bom j /\ tag_dir_raw j = Ok td /\ older_than_03 (profile_version j) = false /\ alike j) ->
  holds_on (fun t => write_file F_baginfo (info_text (i t)) t).
Proof.
  intros J t t' L H. pose proof (rest_wf t L) as W. pose proof (write_file_ok2 _ _ _ _ H) as (-> & D1 & D2).
  pose proof (od_get_set_same F_baginfo (NFile (info_text (i t))) t) as Ng.
  assert (Ns : ~ saved_file td) by apply L.
  apply (rest_change F_baginfo t); auto.
  - apply wf_set; auto. apply baginfo_good.
  - intros p Pp. apply od_get_set_other. exact Pp.
  - right; right; right. left. reflexivity.
  - intros E. exfalso. apply Ns. left. congruence.
  - intros _. split; [exact D1|]. unfold is_dir. rewrite Ng. reflexivity.
  - intros a c E. discriminate E.
  - intros _. unfold tags_of. change (U "bag-info.txt") with F_baginfo. unfold read. rewrite Ng. apply J.
Qed.

Lemma run_rk l : Forall holds_on l -> forall t t', rest t -> run_steps l t = Ok t' -> rest t'.
Proof.
  induction 1 as [|s l Hk _ IH]; intros t t' L H.
  - injection H as <-. exact L.
  - rewrite run_cons in H. apply bind_ok in H. destruct H as (t1 & H1 & H2). apply (IH t1); auto. apply (Hk t); auto.
Qed.

End Reconvert.
