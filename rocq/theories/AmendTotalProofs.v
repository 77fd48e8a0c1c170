(** Amendments that succeed: proofs *)
Require Import String NArith PeanoNat Bool List Lia.
From Verif Require Import PyBase PyFacts Version Tsv TsvProofs Fs FsFacts HeadBag HeadBagProofs HeadBagProofs2 HeadBagProofs3 BagIt BagItProofs Split SplitApply SplitApplyProofs SplitApplyProofs5 SplitApplyProofs8 Restore RestoreProofs RestoreProofs2 RestoreProofs3 RestoreProofs4 RestoreProofs6 RestoreProofs7 RestoreProofs8 RestoreProofs9 RestoreProofs10 Props_Restore3 Amend AmendProofs AmendProofs2 AmendProofs3 AmendProofs4 Props_SplitApply.
Import ListNotations.
Open Scope N_scope.

(** ** In memory *)

Lemma add_members_total ms : forall h l d, cur_members h = Ok l -> table_ok h d ->
  exists h' d', forM ms (fun m => add_member_bag m true) h = (h', Ok tt) /\
    cur_members h' = Ok (add_all l ms) /\ table_ok h' d' /\ same_disk h h'.
Proof.
  induction ms as [|m ms IH]; intros h l d C T; cbn [forM].
  - exists h, d. split; [reflexivity|]. split; [exact C|]. split; [exact T|]. apply only_table_refl.
  - destruct T as (T1 & T2 & T3). destruct (add_member_effect m h l d C T1 T2 T3) as (h1 & R & _).
    destruct (add_member_eff _ _ _ _ _ R C (conj T1 (conj T2 T3))) as (E & T' & S1).
    destruct (IH h1 _ _ (cur_members_some _ _ E) T') as (h' & d' & R' & C' & T'' & S2).
    exists h', d'. split; [|split; [exact C'|split; [exact T''|eapply same_disk_trans; eauto]]].
    unfold bindM. rewrite R. exact R'.
Qed.

Lemma entries_total es : Forall (fun kv : pystr * pystr => fst kv <> [] /\ snd kv <> []) es -> forall h d, cur_table h = Ok d ->
  exists h', forM es (fun kv => add_file_lookup (fst kv) (snd kv)) h = (h', Ok tt).
Proof.
  induction 1 as [|[p b] es [P B] _ IH]; intros h d C; cbn [forM]; [exists h; reflexivity|]. cbn [fst snd] in *.
  destruct (add_lookup_effect p b h d P B C) as (h1 & R & L & _).
  destruct (IH h1 (od_set p b d)) as (h' & R'); [unfold cur_table; rewrite L; reflexivity|].
  exists h'. unfold bindM. rewrite R. exact R'.
Qed.

Lemma update_total s h d : wf_tree (s_tree s) -> s_name s <> [] -> cur_table h = Ok d ->
  exists h', update_for_member s SNone SNone false None h = (h', Ok tt).
Proof.
  intros W Nn C. assert (MD : s_ro s = false \/ flat_exclusions (s_tree s) []) by (right; intros a p []).
  assert (G : Forall good_path [U "data"]) by (constructor; [|constructor]; apply good_pathb_ok; reflexivity).
  destruct (update_loop s [] (s_name s) [U "data"] h d W G Nn MD C) as (h1 & fs & R & _). exists h1. exact R.
Qed.

Lemma bags_total bags : forall h l d, cur_members h = Ok l -> table_ok h d ->
  Forall (fun s => wf_tree (s_tree s) /\ s_name s <> []) bags ->
  exists h', forM (map default_bag bags) add_amending_bag h = (h', Ok tt).
Proof.
  induction bags as [|b bags IH]; intros h l d C T F; cbn [map forM]; [exists h; reflexivity|].
  inversion F as [|? ? [Fw Fn] F']; subst. pose proof T as (T1 & T2 & T3).
  destruct (add_member_effect (ab_member (default_bag b)) h l d C T1 T2 T3) as (h0 & R0 & _).
  destruct (add_member_eff _ _ _ _ _ R0 C T) as (E & T' & S1).
  destruct (update_total b h0 _ Fw Fn (proj1 T')) as (h1 & R1).
  destruct (update_only _ _ _ _ _ _ R1) as (M1 & _ & X). destruct (X _ T') as (d1 & Td).
  destruct (IH h1 _ _ (cur_members_some _ _ (eq_trans M1 E)) Td F') as (h' & R').
  exists h'. unfold bindM at 1. unfold add_amending_bag. unfold bindM at 1. rewrite R0. cbn [default_bag ab_src ab_include ab_exclude]. rewrite R1. exact R'.
Qed.

(** ** Emptying the lists *)

Lemma reset_total h td : std_tags (hb_info h) td -> hb_mem h = None -> NoDup (od_keys (hb_tree h)) -> tagdir_ok (hb_tree h) td ->
  exists t1, reset_members h = (set_tree h t1, Ok tt) /\ reset_step td (hb_tree h) = Ok t1.
Proof.
  intros S M0 D [Hd Hf]. unfold reset_members, reset_step. rewrite (std_tag_dir _ _ S). destruct (is_file (sjoin td F_members) (hb_tree h)) eqn:F.
  - unfold remove_file. rewrite F. eexists. split; [|reflexivity]. unfold bindM, member_bags, member_bags_ro. cbn [hb_mem set_tree]. rewrite M0.
    rewrite (missing_members (set_tree h (od_del (sjoin td F_members) (hb_tree h))) td S); [reflexivity|].
    cbn [hb_tree set_tree]. rewrite read_del by exact D. rewrite streq_refl. reflexivity.
  - unfold ensure_tagdir, ensure_step. rewrite (std_tag_dir _ _ S). destruct Hd as [Hd|[He Hp]].
    + assert (E : exists_ td (hb_tree h) = true) by (unfold exists_; rewrite Hd; apply orb_true_r). rewrite E. exists (hb_tree h).
      split; [destruct h; reflexivity|reflexivity].
    + rewrite He. unfold mkdir. rewrite He, Hp. eexists. split; reflexivity.
Qed.

Lemma clear_total h td : tag_dir (hb_info h) = td -> is_dir (sjoin td F_lookup) (hb_tree h) = false ->
  exists t1, clear_file_lookup h = (set_lu (set_tree h t1) None, Ok tt) /\ clear_step td (hb_tree h) = Ok t1.
Proof.
  intros Td Nd. unfold clear_file_lookup, clear_step. rewrite Td. unfold exists_. rewrite Nd, orb_false_r.
  destruct (is_file (sjoin td F_lookup) (hb_tree h)) eqn:F.
  - unfold remove_file. rewrite F. eexists. split; reflexivity.
  - exists (hb_tree h). split; [destruct h; reflexivity|reflexivity].
Qed.

Lemma sjoin_ne td f : f <> [] -> sjoin td f <> td.
Proof. apply sjoin_neq. Qed.

Lemma sjoin_eq td f g : sjoin td f = sjoin td g -> f = g.
Proof. intros E. unfold sjoin in E. apply app_inv_head in E. apply app_inv_head in E. exact E. Qed.

Lemma dir_same p t t' : od_get p t' = od_get p t -> is_dir p t' = is_dir p t.
Proof. intros E. unfold is_dir. rewrite E. reflexivity. Qed.

Lemma reset_nodes td t t1 : good_path td -> NoDup (od_keys t) -> tagdir_ok t td -> reset_step td t = Ok t1 ->
  (forall q, q <> td -> q <> sjoin td F_members -> od_get q t1 = od_get q t) /\ tagdir_ok t1 td.
Proof.
  intros G D [Hd Hf] H. unfold reset_step in H. destruct (is_file (sjoin td F_members) t) eqn:F.
  - unfold remove_file in H. rewrite F in H. injection H as <-. split.
    + intros q _ Q. apply od_get_del_other. exact Q.
    + assert (X : forall q, q <> sjoin td F_members -> od_get q (od_del (sjoin td F_members) t) = od_get q t) by (intros q Q; apply od_get_del_other; exact Q).
      split.
      * destruct Hd as [Hd|[He Hp]].
        -- left. rewrite (dir_same td t); [exact Hd|]. apply X. intros E. symmetry in E. apply sjoin_ne in E; [exact E|discriminate].
        -- right. split.
           ++ unfold exists_, is_file in *. rewrite X, (dir_same td t); [exact He| |]; try apply X; intros E; symmetry in E; (apply sjoin_ne in E; [exact E|discriminate]).
           ++ rewrite (dir_same (dirname td) t); [exact Hp|]. apply X. intros E.
              assert (L : (length (dirname td) < length td)%nat) by (apply dirname_shorter; apply good_path_nonempty; exact G).
              rewrite E in L. unfold sjoin in L. rewrite !app_length in L. cbn in L. lia.
      * intros f I. destruct (streq_reflect (sjoin td f) (sjoin td F_members)) as [->|E].
        -- unfold is_dir. rewrite od_get_del_same by exact D. destruct (sjoin td F_members) eqn:Q; [|reflexivity].
           destruct td; discriminate Q.
        -- rewrite (dir_same _ t); [apply Hf; exact I|apply X; exact E].
  - unfold ensure_step in H. destruct (exists_ td t) eqn:Ex.
    + injection H as <-. split; [auto|]. split; [|exact Hf]. destruct Hd as [Hd|[He _]]; [left; exact Hd|congruence].
    + unfold mkdir in H. rewrite Ex in H. destruct (is_dir (dirname td) t) eqn:Ed; [|discriminate H]. injection H as <-. split.
      * intros q Q _. apply od_get_set_other. exact Q.
      * split.
        -- left. unfold is_dir. rewrite od_get_set_same. destruct td; reflexivity.
        -- intros f I. rewrite (dir_same _ t); [apply Hf; exact I|]. apply od_get_set_other. apply sjoin_ne. cbn in I. destruct I as [<-|[<-|[<-|[]]]]; discriminate.
Qed.

Lemma clear_nodes td t t1 : NoDup (od_keys t) -> tagdir_ok t td -> clear_step td t = Ok t1 ->
  (forall q, q <> sjoin td F_lookup -> od_get q t1 = od_get q t) /\ (is_dir td t = true -> tagdir_ok t1 td).
Proof.
  intros D [Hd Hf] H. pose proof (clear_step_none td t t1 D H) as [R X]. split; [exact X|]. intros E. split.
  - left. rewrite (dir_same td t); [exact E|]. apply X. intros Y. symmetry in Y. apply sjoin_ne in Y; [exact Y|discriminate].
  - intros f I. destruct (streq_reflect (sjoin td f) (sjoin td F_lookup)) as [Y|Y]; [|rewrite (dir_same _ t); [apply Hf; exact I|apply X; exact Y]].
    rewrite Y. specialize (Hf F_lookup ltac:(cbn; auto)). unfold clear_step in H. destruct (exists_ (sjoin td F_lookup) t) eqn:Z.
    + unfold remove_file in H. destruct (is_file (sjoin td F_lookup) t); [|discriminate H]. injection H as <-.
      unfold is_dir. rewrite od_get_del_same by exact D. destruct (sjoin td F_lookup) eqn:Q; [|reflexivity]. destruct td; discriminate Q.
    + injection H as <-. exact Hf.
Qed.

Lemma reset_dir td t t1 : wf_tree t -> reset_step td t = Ok t1 -> tagdir_ok t td -> good_path td -> is_dir td t1 = true.
Proof.
  intros W H [Hd _] G. unfold reset_step in H. destruct (is_file (sjoin td F_members) t) eqn:F.
  - unfold remove_file in H. rewrite F in H. injection H as <-.
    assert (I : In (sjoin td F_members) (od_keys t)).
    { apply is_file_read in F. destruct F as [c F]. apply read_get in F. eapply od_get_some_key. exact F. }
    pose proof (wf_parents t W _ I) as P. assert (E : dirname (sjoin td F_members) = td).
    { apply dirname_sjoin. cbn. intuition discriminate. }
    rewrite E in P. rewrite (dir_same td t); [exact P|]. apply od_get_del_other. intros Y. symmetry in Y. apply sjoin_ne in Y; [exact Y|discriminate].
  - unfold ensure_step in H. destruct (exists_ td t) eqn:Ex.
    + injection H as <-. destruct Hd as [Hd|[He _]]; [exact Hd|congruence].
    + apply mkdir_ok in H. subst t1. unfold is_dir. rewrite od_get_set_same. destruct td; reflexivity.
Qed.

(** ** Saving *)

(** What saving needs and keeps. *)
Record savable (v : env) (algs : list pystr) (t : tree) : Prop := {
  sv_wf : wf_tree t;
  sv_version : exists c v1, read F_bagit t = Some c /\ e_version v c = Ok (true, v1);
  sv_mans : good_mans v (e_dest v) t;
  sv_names : names_ok v t;
  sv_info : od_get F_baginfo t <> Some NDir;
  sv_tags : forall a, In a algs -> od_get (man_name K_tag a) t <> Some NDir
}.

Lemma save_total v algs i t : sane v -> NoDup (e_algos v) -> good_hash v -> incl algs (e_algos v) -> savable v algs t ->
  info_ok Codecs i -> (forall k, In k (od_keys i) -> hd 0 k <> BOM) -> good_name v F_baginfo ->
  exists t', save v algs i t = Ok t' /\ savable v algs t'.
Proof.
  intros S ND Gh Ia [W (c0 & v1 & Rb & V0) Gm Nm Bi Nd] Oi Nb Gb.
  set (t1 := od_set F_baginfo (NFile (info_text i)) t).
  assert (Nsl : ~ In SLASH F_baginfo) by (intros I; cbn in I; intuition discriminate).
  assert (Wr : write_file F_baginfo (info_text i) t = Ok t1) by (apply write_top_succeeds; [apply baginfo_good|exact Nsl|exact Bi]).
  assert (Wt1 : wf_tree t1) by (eapply (run_op_wf t (OWrite _ _)); [apply baginfo_good|exact W|exact Wr]).
  assert (Nd1 : forall a, In a algs -> od_get (man_name K_tag a) t1 <> Some NDir).
  { intros a I. unfold t1. rewrite od_get_set_other by discriminate. apply Nd. exact I. }
  destruct (tags_succeed v algs t1 S Ia Nd1) as [t2 H2].
  destruct (tags_written v algs t1 t2 Nd1 H2) as (Tf & Tm & Tr & To).
  assert (Nm1 : names_ok v t1).
  { intros p F T1 T2. destruct (streq_reflect p F_baginfo) as [->|E]; [exact Gb|]. apply Nm; auto.
    unfold is_file, t1 in *. rewrite od_get_set_other in F by exact E. exact F. }
  assert (W1 : NoDup (od_keys t1)) by apply (wf_nodup _ Wt1).
  assert (Gn : forall p, In p (tag_files t1) -> good_name v p).
  { intros p I. apply tag_files_in in I; auto. destruct I as (A1 & A2 & A3). apply Nm1; auto. }
  assert (Lt : forall a, manifest_lines IoText (skip_bom (tagmanifest v a t1)) = tag_list v a t1).
  { intros a. apply tagmanifest_lines; auto. intros p I. apply Gn in I. apply I. }
  assert (Pay : forall a, od_get (man_name K_man a) t2 = od_get (man_name K_man a) t).
  { intros a. rewrite To by (intros b _; apply man_tag_differ). unfold t1. apply od_get_set_other. discriminate. }
  assert (Oth : forall a, ~ In a algs -> od_get (man_name K_tag a) t2 = od_get (man_name K_tag a) t).
  { intros a N0. rewrite To by (intros b I E; apply man_name_inj in E; subst; contradiction). unfold t1. apply od_get_set_other. discriminate. }
  assert (G2 : good_mans v (e_dest v) t2).
  { intros pay a c Ia' R. destruct pay; cbn [kind_of] in R.
    - apply (Gm true a c Ia'). cbn [kind_of]. unfold read in *. rewrite Pay in R. exact R.
    - destruct (str_in a algs) eqn:Sa.
      + apply str_in_iff in Sa. rewrite Tr in R by auto. inversion R; subst c. split; [apply tagmanifest_good; auto|].
        rewrite Lt. intros h p I. unfold tag_list in I. apply in_map_iff in I. destruct I as (q & E & I). inversion E; subst. apply Gn in I. apply I.
      + apply str_in_false in Sa. apply (Gm false a c Ia'). cbn [kind_of]. unfold read in *. rewrite Oth in R by auto. exact R. }
  assert (Rb2 : read F_bagit t2 = Some c0).
  { apply read_get. rewrite To by discriminate. unfold t1. rewrite od_get_set_other by discriminate. apply read_get. exact Rb. }
  assert (Ri2 : read F_baginfo t2 = Some (info_text i)).
  { apply read_get. rewrite To by discriminate. apply od_get_set_same. }
  destruct (info_loads Codecs i Oi Nb) as [d Hd].
  destruct (load_good v (e_dest v) t2 Codecs true v1 ND G2) as (es & Hl & _).
  assert (Hs : save v algs i t = Ok t2).
  { unfold save. rewrite Wr. cbn [bind]. rewrite H2. cbn [bind]. unfold open_bag. rewrite Rb2, V0. cbn [bind]. rewrite Ri2, Hd. cbn [bind].
    rewrite Hl. reflexivity. }
  exists t2. split; [exact Hs|].
  destruct (save_nodes v algs i t t2 S Ia W Hs) as (W2 & _). constructor.
  - exact W2.
  - eauto.
  - exact G2.
  - intros p F T1 T2. apply Nm1; auto. unfold is_file in *. rewrite To in F; [exact F|].
    intros a I ->. rewrite man_is_tagman in T2. discriminate.
  - apply read_get in Ri2. rewrite Ri2. discriminate.
  - intros a I. apply Tr in I. apply read_get in I. rewrite I. discriminate.
Qed.

Definition no_bom (i : infod) : Prop := forall k, In k (od_keys i) -> hd 0 k <> BOM.
Lemma no_bom_set k x i : no_bom i -> hd 0 k <> BOM -> no_bom (od_set k x i).
Proof. intros H K q I. apply keys_set in I. destruct I as [->|I]; auto. Qed.
Lemma no_bom_del k i : no_bom i -> no_bom (od_del k i).
Proof.
  intros H q I. apply H. unfold od_keys in *. apply in_map_iff in I. destruct I as ([a b] & E & I). apply in_map_iff. exists (a, b).
  split; [exact E|]. eapply od_del_incl; eauto.
Qed.
Lemma no_bom_default k x i : no_bom i -> hd 0 k <> BOM -> no_bom (od_setdefault k x i).
Proof. intros H K. unfold od_setdefault. destruct (od_has k i); [exact H|]. apply no_bom_set; assumption. Qed.
Lemma no_bom_update version profver i : no_bom i -> no_bom (update_info_tags version profver i).
Proof.
  intros H. unfold update_info_tags. cbv zeta. apply no_bom_del, no_bom_del.
  match goal with |- no_bom (match od_get T_ISD ?x with _ => _ end) => assert (X : no_bom x) end.
  { apply no_bom_set; [|discriminate]. apply no_bom_default; [|discriminate]. apply no_bom_default; [|discriminate]. apply no_bom_set; [|discriminate].
    destruct (truthy version); [apply no_bom_set; [exact H|discriminate]|exact H]. }
  match goal with |- no_bom (match ?e with _ => _ end) => destruct e end; (apply no_bom_set; [exact X|discriminate]).
Qed.
Lemma no_bom_init repr old new : no_bom (hb_info new) -> no_bom (init_info repr false old new).
Proof.
  intros H. unfold init_info, init_multibag_info.
  destruct (od_get T_HeadDeprecates (hb_info old)) as [[s|l]|]; cbn [snd hb_info set_info];
    (apply no_bom_set; [apply no_bom_set; [exact H|discriminate]|discriminate]).
Qed.

Lemma info_total v algs bsize version profver h : sane v -> NoDup (e_algos v) -> good_hash v -> incl algs (e_algos v) -> savable v algs (hb_tree h) ->
  plain_size bsize -> info_ok Codecs (hb_info h) -> no_bom (hb_info h) -> tag_value_ok Codecs version -> tag_value_ok Codecs profver ->
  good_name v F_baginfo ->
  exists h', update_info_disk v algs bsize (Some version) profver h = (h', Ok tt).
Proof.
  intros S ND Gh Ia Sv B Oi Nb Vv Pv Gb. set (i1 := update_info_tags (Some version) profver (hb_info h)).
  assert (O1 : info_ok Codecs i1) by (apply update_tags_ok; auto). assert (B1 : no_bom i1) by (apply no_bom_update; exact Nb).
  destruct (save_total v algs i1 (hb_tree h) S ND Gh Ia Sv O1 B1 Gb) as (t1 & S1 & Sv1).
  set (i2 := od_set T_BagSize (IStr (bsize t1)) i1).
  assert (O2 : info_ok Codecs i2).
  { destruct (B t1) as [Bb Bt]. apply info_ok_put; [exact O1|apply lit_name; reflexivity|discriminate|].
    constructor; [|constructor]. apply value_ok_plain. split; auto. }
  assert (B2 : no_bom i2) by (apply no_bom_set; [exact B1|discriminate]).
  destruct (save_total v algs i2 t1 S ND Gh Ia Sv1 O2 B2 Gb) as (t2 & S2 & _).
  eexists. unfold update_info_disk, bindM, saveM. cbn [hb_info hb_tree set_info set_tree]. fold i1. rewrite S1. cbn [hb_info hb_tree set_info set_tree].
  fold i2. rewrite S2. reflexivity.
Qed.

(** ** Writing the lists *)

Lemma top_not_join v algs td f q : sane v -> incl algs (e_algos v) ->
  q = F_bagit \/ q = F_baginfo \/ (exists k a, In k [K_man; K_tag] /\ In a (e_algos v) /\ q = man_name k a) -> q <> sjoin td f.
Proof.
  intros S Ia H E. assert (I : In SLASH q) by (rewrite E; unfold sjoin; apply in_or_app; right; left; reflexivity).
  destruct H as [->|[->|(k & a & K & A & ->)]]; [cbn in I; intuition discriminate|cbn in I; intuition discriminate|].
  apply (man_no_slash k a); auto.
Qed.

Lemma savable_put v algs td f c t : sane v -> incl algs (e_algos v) -> savable v algs t -> good_path (sjoin td f) -> good_name v (sjoin td f) ->
  write_file (sjoin td f) c t = Ok (od_set (sjoin td f) (NFile c) t) -> savable v algs (od_set (sjoin td f) (NFile c) t).
Proof.
  intros S Ia [W (c0 & v1 & Rb & V0) Gm Nm Bi Nd] G Gn Wr.
  assert (X : forall q, q = F_bagit \/ q = F_baginfo \/ (exists k a, In k [K_man; K_tag] /\ In a (e_algos v) /\ q = man_name k a) ->
    od_get q (od_set (sjoin td f) (NFile c) t) = od_get q t).
  { intros q Q. apply od_get_set_other. apply (top_not_join v algs); auto. }
  constructor.
  - eapply (run_op_wf t (OWrite _ _)); [exact G|exact W|exact Wr].
  - exists c0, v1. split; [|exact V0]. unfold read in *. rewrite X by auto. exact Rb.
  - intros pay a c1 A R. apply (Gm pay a c1 A). unfold read in *. rewrite X in R; [exact R|]. right; right. exists (kind_of pay), a.
    split; [destruct pay; cbn; auto|auto].
  - intros p F T1 T2. destruct (streq_reflect p (sjoin td f)) as [->|E]; [exact Gn|]. apply Nm; auto.
    unfold is_file in *. rewrite od_get_set_other in F by exact E. exact F.
  - rewrite X by auto. exact Bi.
  - intros a A. rewrite X; [apply Nd; exact A|]. right; right. exists K_tag, a. cbn. auto.
Qed.

Lemma members_formatted l : Forall (fun m => m_info m = []) l -> snd (members_prefix l) = Ok tt.
Proof.
  induction 1 as [|m l E _ IH]; [reflexivity|]. cbn [members_prefix]. unfold format_member. rewrite E.
  destruct (members_prefix l) as [r x]. cbn [snd] in *. exact IH.
Qed.

Lemma tree_eta h : set_tree h (hb_tree h) = h.
Proof. destruct h; reflexivity. Qed.

Lemma put_total td f c h : tag_dir (hb_info h) = td -> In f [F_members; F_lookup; F_deleted] -> is_dir td (hb_tree h) = true -> tagdir_ok (hb_tree h) td ->
  let t' := od_set (sjoin td f) (NFile c) (hb_tree h) in
  (ensure_tagdir ;; put_file (sjoin td f) c) h = (set_tree h t', Ok tt) /\ write_file (sjoin td f) c (hb_tree h) = Ok t' /\
  is_dir td t' = true /\ tagdir_ok t' td.
Proof.
  intros Td If Hd [_ Hf] t'.
  assert (Wr : write_file (sjoin td f) c (hb_tree h) = Ok t').
  { unfold write_file. rewrite (Hf f If). rewrite dirname_sjoin; [rewrite Hd; reflexivity|]. cbn in If. destruct If as [<-|[<-|[<-|[]]]]; cbn; intuition discriminate. }
  assert (Ne : f <> []) by (cbn in If; destruct If as [<-|[<-|[<-|[]]]]; discriminate).
  assert (Hd' : is_dir td t' = true).
  { rewrite (dir_same td (hb_tree h)); [exact Hd|]. apply od_get_set_other. intros E. symmetry in E. apply sjoin_ne in E; assumption. }
  split; [|split; [exact Wr|split; [exact Hd'|split; [left; exact Hd'|]]]].
  - unfold bindM, ensure_tagdir, put_file. rewrite Td. unfold exists_. rewrite Hd, orb_true_r. rewrite Wr. reflexivity.
  - intros g G. unfold t'. unfold is_dir. rewrite od_get_set. destruct (streq (sjoin td g) (sjoin td f)) eqn:E.
    + destruct (sjoin td g) eqn:Q; [destruct td; discriminate Q|reflexivity].
    + exact (Hf g G).
Qed.

Lemma write_all_total v algs bsize version h td l : sane v -> NoDup (e_algos v) -> good_hash v -> incl algs (e_algos v) ->
  savable v algs (hb_tree h) -> plain_size bsize -> info_ok Codecs (hb_info h) -> no_bom (hb_info h) -> tag_value_ok Codecs version ->
  tag_dir (hb_info h) = td -> profile_version (hb_info h) = CURRENT_VERSION -> is_dir td (hb_tree h) = true -> tagdir_ok (hb_tree h) td ->
  good_path (sjoin td F_members) -> good_path (sjoin td F_lookup) ->
  Forall (good_name v) [F_baginfo; sjoin td F_members; sjoin td F_lookup] ->
  hb_mem h = Some l -> Forall (fun m => m_info m = []) l ->
  exists h', write_all v algs bsize version h = (h', Ok tt).
Proof.
  intros S ND Gh Ia Sv B Oi Nb Vv Td Pv Hd Ht G1 G2 Gn Hm Fm.
  inversion Gn as [|? ? Gb Gn']; subst. inversion Gn' as [|? ? Gm Gn'']; subst. inversion Gn'' as [|? ? Gl _]; subst. clear Gn Gn' Gn''.
  set (td := tag_dir (hb_info h)) in *.
  destruct (put_total td F_members (fst (members_prefix l)) h eq_refl ltac:(cbn; auto) Hd Ht) as (P1 & W1 & Hd1 & Ht1).
  pose proof (savable_put v algs td F_members _ _ S Ia Sv G1 Gm W1) as Sv1.
  set (t1 := od_set (sjoin td F_members) (NFile (fst (members_prefix l))) (hb_tree h)) in *.
  assert (Sm : save_member_bags h = (set_tree h t1, Ok tt)).
  { unfold save_member_bags. rewrite Hm. fold td. unfold bindM in P1 |- *. destruct (ensure_tagdir h) as [h1 [x|e]]; [|discriminate P1]. rewrite P1.
    rewrite (members_formatted l Fm). reflexivity. }
  assert (X : exists t2, save_file_lookup (set_tree h t1) = (set_tree h t2, Ok tt) /\ savable v algs t2).
  { unfold save_file_lookup. cbn [hb_lu set_tree]. destruct (hb_lu h) as [d|].
    - destruct (put_total td F_lookup (lookup_text d) (set_tree h t1) eq_refl ltac:(cbn; auto) Hd1 Ht1) as (P2 & W2 & _).
      eexists. split; [exact P2|]. apply (savable_put v algs td F_lookup _ _ S Ia Sv1 G2 Gl W2).
    - exists t1. auto. }
  destruct X as (t2 & Sl & Sv2).
  destruct (info_total v algs bsize version CURRENT_VERSION (set_tree h t2) S ND Gh Ia Sv2 B Oi Nb Vv (plain_valueb_ok CURRENT_VERSION eq_refl) Gb) as (h' & H').
  exists h'. unfold write_all. unfold bindM at 1. rewrite Sm. unfold bindM at 1. rewrite Sl. cbn [hb_info set_tree]. rewrite Pv. exact H'.
Qed.

(** ** The whole amendment *)

(** The bag [old] can be taken over: its lists can be read if it is a head
    bag, and no member has further fields. *)
Definition takes_over (old : hb) : Prop :=
  if is_head old then
    (exists ms, iter_member_bags old = Ok ms /\ Forall (fun m => m_info m = []) ms) /\
    (exists es, iter_file_lookup old = Ok es /\ Forall (fun kv : pystr * pystr => fst kv <> [] /\ snd kv <> []) es)
  else hb_name old <> [] /\ wf_tree (hb_tree old).

(** The files [t] of a bag leave room for lists in the directory [td]. *)
Record roomy (v : env) (algs : list pystr) (td : pystr) (t : tree) : Prop := {
  ry_bag : bag_files t;
  ry_dir : good_path td;
  ry_out : outside_payload td;
  ry_unsaved : ~ saved_file td;
  ry_tagdir : tagdir_ok t td;
  ry_lookup : forall c, read (sjoin td F_lookup) t = Some c -> exists es, parse_file Codecs parse_lookup_03 (decode Codecs c) = Ok es;
  ry_save : savable v algs t;
  ry_lists : Forall (good_name v) [F_baginfo; sjoin td F_members; sjoin td F_lookup]
}.

Lemma good_listfile td f : good_path td -> In f [F_members; F_lookup] -> good_path (sjoin td f).
Proof.
  intros G I. apply good_path_app. split; [exact G|]. apply good_pathb_ok. cbn in I. destruct I as [<-|[<-|[]]]; reflexivity.
Qed.

Lemma same_disk_std h h' td : same_disk h h' -> std_tags (hb_info h) td -> std_tags (hb_info h') td.
Proof. intros (_ & _ & _ & E & _) S. rewrite E. exact S. Qed.

Lemma add_all_Forall (P : minfo -> Prop) ms : Forall P ms -> forall l, Forall P l -> Forall P (add_all l ms).
Proof.
  unfold add_all. induction 1 as [|m ms M _ IH]; intros l L; cbn [fold_left]; [exact L|]. apply IH. apply Forall_app. split; [|constructor; [exact M|constructor]].
  unfold drop_member. apply Forall_forall. intros x X. apply filter_In in X. exact (proj1 (Forall_forall _ _) L x (proj1 X)).
Qed.

Lemma lists_total repr ro old bags new td name t i :
  new = open_hb name t i Codecs -> tag_dir_raw i = Ok td -> name <> [] ->
  bag_files t -> good_path td -> outside_payload td -> tagdir_ok t td ->
  (forall c, read (sjoin td F_lookup) t = Some c -> exists es, parse_file Codecs parse_lookup_03 (decode Codecs c) = Ok es) ->
  takes_over old -> Forall (fun s => wf_tree (s_tree s) /\ s_name s <> []) bags ->
  exists h old' t1, amend_lists repr false ro old (map default_bag bags) (own_member None None []) SNone SNone new = (h, Ok old') /\
    reset_step td t = Ok t1 /\ clear_step td t1 = Ok (hb_tree h) /\ hb_info h = init_info repr false old new /\
    exists l, hb_mem h = Some l /\ Forall (fun m => m_info m = []) l.
Proof.
  intros En Td Nn [W Df] G O Ht Lr To Fb.
  pose proof (init_new repr false old new) as In_. pose proof (init_old repr false old new) as (Oh & Om & Ol & On & Ot).
  assert (S0 : std_tags (init_info repr false old new) td) by (apply init_std; subst new; exact Td).
  unfold amend_lists. destruct (init_multibag_info repr false old new) as [old0 new0]. cbn [fst snd] in *. subst new0.
  set (h0 := set_info new (init_info repr false old new)) in *.
  assert (M0 : hb_mem h0 = None) by (subst new; reflexivity). assert (L0 : hb_lu h0 = None) by (subst new; reflexivity).
  assert (T0 : hb_tree h0 = t) by (subst new; reflexivity). assert (N0 : hb_name h0 = name) by (subst new; reflexivity).
  assert (R0 : hb_reader h0 = Codecs) by (subst new; reflexivity).
  assert (D0 : NoDup (od_keys (hb_tree h0))) by (rewrite T0; apply wf_nodup; exact W).
  assert (S1 : std_tags (hb_info h0) td) by exact S0.
  destruct (reset_total h0 td S1 M0 D0 ltac:(rewrite T0; exact Ht)) as (t1 & H1 & E1).
  destruct (reset_eff h0 _ td S1 M0 D0 H1) as (t1' & Q & _ & D1 & Rd). apply (f_equal hb_tree) in Q. cbn [hb_tree set_tree] in Q. subst t1'. rewrite T0 in E1.
  destruct (reset_nodes td t t1 G ltac:(apply wf_nodup; exact W) Ht E1) as (X1 & Ht1).
  set (h1 := set_tree h0 t1) in *.
  assert (C1 : cur_members h1 = Ok []).
  { unfold cur_members. change (hb_mem h1) with (hb_mem h0). rewrite M0. rewrite (missing_members h1 td S1 Rd). reflexivity. }
  assert (Tb1 : exists d, table_ok h1 d).
  { assert (X : exists d, cur_table h1 = Ok d).
    { unfold cur_table. change (hb_lu h1) with (hb_lu h0). rewrite L0. unfold disk_lookup. destruct (read (sjoin td F_lookup) t1) as [c|] eqn:Rc.
      - rewrite (iter_lookup_read h1 td c S1 Rc). change (hb_reader h1) with (hb_reader h0). rewrite R0. destruct (Lr c) as (es & ->); [|eauto].
        unfold read in *. rewrite X1 in Rc; [exact Rc| |].
        + intros Y. apply sjoin_ne in Y; [exact Y|discriminate].
        + intros Y. apply sjoin_eq in Y. discriminate Y.
      - rewrite (missing_lookup h1 td S1 Rc). eauto. }
    destruct X as [d X]. exists d. apply fresh_table; [exact L0|exact X]. }
  destruct Tb1 as [d1 Tb1].
  (* members *)
  assert (Mb : exists h2 l d2, init_member_bags old0 h0 = (h2, Ok tt) /\ cur_members h2 = Ok l /\ table_ok h2 d2 /\ same_disk h1 h2 /\
    Forall (fun m => m_info m = []) l).
  { unfold init_member_bags. unfold bindM. rewrite H1. rewrite Oh, Om, On. unfold takes_over in To. destruct (is_head old).
    - destruct To as ((ms & -> & Fm) & _). destruct (add_members_total ms h1 [] d1 C1 Tb1) as (h2 & d2 & Z & Z1 & Z2 & Z3). exists h2, (add_all [] ms), d2. split; [exact Z|]. split; [exact Z1|]. split; [exact Z2|]. split; [exact Z3|]. apply add_all_Forall; [exact Fm|constructor].
    - destruct (add_members_total [plain_member (hb_name old)] h1 [] d1 C1 Tb1) as (h2 & d2 & Z & Z1 & Z2 & Z3). cbn [forM] in Z. unfold bindM in Z.
      destruct (add_member_bag (plain_member (hb_name old)) true h1) as [h3 [[]|e]]; [|discriminate Z]. cbn in Z. injection Z as ->.
      exists h2, (add_all [] [plain_member (hb_name old)]), d2. split; [reflexivity|]. split; [exact Z1|]. split; [exact Z2|]. split; [exact Z3|].
      apply add_all_Forall; repeat constructor. }
  destruct Mb as (h2 & l2 & d2 & Em & C2 & Tb2 & Sd2 & F2).
  pose proof Sd2 as (Sn & St & _ & Si & Sr). change (hb_tree h1) with t1 in St.
  assert (S2 : std_tags (hb_info h2) td) by (rewrite Si; exact S1).
  destruct (clear_total h2 td (std_tag_dir _ _ S2)) as (t2 & Ec & E2).
  { rewrite St. apply Ht1. cbn; auto. }
  rewrite St in E2.
  assert (Lk : exists h3, init_file_lookup ro old0 h2 = (h3, Ok tt)).
  { assert (Ct : cur_table (set_lu (set_tree h2 t2) None) = Ok []).
    { unfold cur_table. cbn [hb_lu set_lu]. unfold disk_lookup. rewrite (missing_lookup _ td); [reflexivity|exact S2|].
      exact (proj1 (clear_step_none td t1 t2 D1 E2)). }
    unfold init_file_lookup. unfold bindM. rewrite Ec. rewrite Oh, Ol. unfold takes_over in To. destruct (is_head old).
    - destruct To as (_ & es & -> & F). exact (entries_total es F _ _ Ct).
    - destruct To as (Tn & Tw). apply (update_total (src_of ro old0) _ []); [unfold src_of; cbn [s_tree]; rewrite Ot; exact Tw|unfold src_of; cbn [s_name]; rewrite On; exact Tn|exact Ct]. }
  destruct Lk as (h3 & El).
  destruct (init_lookup_eff ro old0 h2 h3 td l2 S2 ltac:(rewrite St; exact D1) C2 El) as (t2' & h3' & Q & D2 & -> & Tb3 & (_ & Sd3 & Tb3') & C3 & _).
  rewrite St in Q. assert (t2' = t2) by congruence. subst t2'. clear Q.
  destruct (Tb3' _ Tb3) as (d3 & Tb4). clear Tb3 Tb3'.
  destruct (bags_total bags h3 l2 d3 C3 Tb4 Fb) as (h4 & Eb).
  destruct (bags_eff _ _ _ _ _ C3 Tb4 Eb) as (C4 & (d4 & Tb5) & Sd4).
  pose proof (same_disk_trans _ _ _ Sd3 Sd4) as (Sn4 & St4 & _ & Si4 & _). cbn [hb_name hb_tree hb_info set_tree set_lu] in Sn4, St4, Si4.
  assert (Nm4 : hb_name h4 = name) by (rewrite Sn4, Sn; exact N0).
  destruct Tb5 as (Tc & Tn & Tk).
  destruct (add_member_effect (own_member None None [] (hb_name h4)) h4 _ d4 C4 Tc Tn Tk) as (h5 & Ei & _).
  destruct (add_member_eff _ _ _ _ _ Ei C4 (conj Tc (conj Tn Tk))) as (Em5 & Tb6 & Sd5).
  pose proof Sd5 as (Sn5 & St5 & _ & Si5 & _).
  assert (W5 : wf_tree (hb_tree h5)) by (rewrite St5, St4; exact (proj1 (proj1 (reset_payload td t t1 t2 G O (conj W Df) E1 E2)))).
  destruct (update_total (src_of false h5) h5 _ W5 ltac:(cbn [s_name src_of]; rewrite Sn5, Nm4; exact Nn) (proj1 Tb6)) as (h6 & Eu).
  destruct (update_only _ _ _ _ _ _ Eu) as (M6 & (Sn6 & St6 & _ & Si6 & _) & _).
  exists h6, old0, t1. split.
  - unfold bindM. rewrite Em, El, Eb. unfold list_itself, bindM. rewrite Ei, Eu. reflexivity.
  - split; [exact E1|]. split; [rewrite E2; f_equal; congruence|]. split; [rewrite Si6, Si5, Si4, Si; reflexivity|].
    eexists. split; [rewrite M6; exact Em5|]. apply Forall_app. split; [|repeat constructor].
    unfold drop_member. apply Forall_forall. intros x X. apply filter_In in X. destruct X as [X _]. revert x X. apply Forall_forall.
    apply add_all_Forall; [|exact F2]. rewrite map_map. apply Forall_map. apply Forall_forall. intros x _. reflexivity.
Qed.

Lemma savable_reset v algs td t t1 t2 : sane v -> incl algs (e_algos v) -> good_path td -> outside_payload td -> ~ saved_file td -> tagdir_ok t td -> bag_files t ->
  reset_step td t = Ok t1 -> clear_step td t1 = Ok t2 -> savable v algs t -> savable v algs t2 /\ is_dir td t2 = true /\ tagdir_ok t2 td.
Proof.
  intros S Ia G O Ns Ht B E1 E2 [W (c0 & v1 & Rb & V0) Gm Nm Bi Nd].
  pose proof (reset_payload td t t1 t2 G O B E1 E2) as [[W2 _] _].
  destruct (reset_nodes td t t1 G ltac:(apply wf_nodup; exact W) Ht E1) as (X1 & Ht1).
  pose proof (reset_dir td t t1 W E1 Ht G) as Hd1.
  assert (D1 : NoDup (od_keys t1)).
  { unfold reset_step in E1. destruct (is_file _ _) eqn:F.
    - unfold remove_file in E1. rewrite F in E1. injection E1 as <-. apply od_del_NoDup, wf_nodup. exact W.
    - apply (ensure_step_other _ _ _ E1). apply wf_nodup. exact W. }
  destruct (clear_nodes td t1 t2 D1 Ht1 E2) as (X2 & Ht2). specialize (Ht2 Hd1).
  assert (Hd2 : is_dir td t2 = true).
  { rewrite (dir_same td t1); [exact Hd1|]. apply X2. intros Y. symmetry in Y. apply sjoin_ne in Y; [exact Y|discriminate]. }
  assert (Top : forall q, q <> td -> (q = F_bagit \/ q = F_baginfo \/ (exists k a, In k [K_man; K_tag] /\ In a (e_algos v) /\ q = man_name k a)) ->
     od_get q t2 = od_get q t).
  { intros q Q H. rewrite X2 by (apply (top_not_join v algs); assumption). apply X1; [exact Q|apply (top_not_join v algs); assumption]. }
  split; [|split; [exact Hd2|exact Ht2]]. constructor.
  - exact W2.
  - exists c0, v1. split; [|exact V0]. unfold read in *. rewrite Top; [exact Rb| |auto]. intros <-.
    destruct Ht as [[Hd|[He _]] _].
    + unfold is_dir in Hd. destruct (od_get F_bagit t) as [[|]|]; discriminate.
    + unfold exists_, is_file in He. destruct (od_get F_bagit t) as [[|]|]; discriminate.
  - intros pay a c1 A R. destruct (streq_reflect (man_name (kind_of pay) a) td) as [Y|Y].
    + exfalso. unfold read in R. rewrite Y in R. unfold is_dir in Hd2. destruct td; [apply good_path_nonempty in G; apply G; reflexivity|].
      destruct (od_get (n :: td) t2) as [[|]|]; discriminate.
    + apply (Gm pay a c1 A). unfold read in *. rewrite Top in R; [exact R|exact Y|]. right; right. exists (kind_of pay), a.
      split; [destruct pay; cbn; auto|auto].
  - intros p F T1 T2. apply Nm; auto. unfold is_file in *.
    assert (Y1 : p <> td).
    { intros ->. unfold is_dir in Hd2. destruct td; [apply good_path_nonempty in G; apply G; reflexivity|]. destruct (od_get (n :: td) t2) as [[|]|]; discriminate. }
    assert (Y2 : p <> sjoin td F_lookup).
    { intros ->. pose proof (proj1 (clear_step_none td t1 t2 D1 E2)) as Z. unfold read in Z. destruct (od_get (sjoin td F_lookup) t2) as [[|]|]; discriminate. }
    rewrite (X2 p Y2) in F. destruct (streq_reflect p (sjoin td F_members)) as [->|Y3]; [|rewrite (X1 p Y1 Y3) in F; exact F].
    exfalso. unfold reset_step in E1. destruct (is_file (sjoin td F_members) t) eqn:Fm.
    + unfold remove_file in E1. rewrite Fm in E1. injection E1 as <-. rewrite od_get_del_same in F by (apply wf_nodup; exact W). discriminate F.
    + destruct (ensure_step_other _ _ _ E1) as [Z _]. unfold is_file in Fm. rewrite Z in F; [rewrite Fm in F; discriminate F|].
      apply sjoin_ne. discriminate.
  - rewrite Top; [exact Bi| |auto]. intros Y. apply Ns. left. symmetry. exact Y.
  - intros a A. rewrite Top; [apply Nd; exact A| |]; [intros Y; apply Ns; right; exists a; symmetry; exact Y|]. right; right. exists K_tag, a. cbn. auto.
Qed.

Lemma amend_total v algs bsize repr ro old bags version name t i td :
  sane v -> NoDup (e_algos v) -> good_hash v -> incl algs (e_algos v) -> plain_size bsize ->
  tags_of Codecs t = Ok i -> no_bom i -> tag_dir_raw i = Ok td -> name <> [] -> roomy v algs td t -> tag_value_ok Codecs version ->
  Forall (tag_value_ok Codecs) (deprecates repr (hb_info old)) ->
  takes_over old -> Forall (fun s => wf_tree (s_tree s) /\ s_name s <> []) bags ->
  exists new' old', amend_bag_with v algs bsize repr ro old bags version (open_hb name t i Codecs) = (new', Ok old').
Proof.
  intros S ND Gh Ia B Ti Nb Td Nn [Bf G O Ns Ht Lr Sv Gn] Vv Fd To Fb. set (new := open_hb name t i Codecs).
  destruct (lists_total repr ro old bags new td name t i eq_refl Td Nn Bf G O Ht Lr To Fb) as (h & old' & t1 & El & E1 & E2 & Ei & l & Em & Fl).
  destruct (savable_reset v algs td t t1 _ S Ia G O Ns Ht Bf E1 E2 Sv) as (Sv2 & Hd2 & Ht2).
  pose proof (init_std repr old new td Td) as S0.
  destruct (write_all_total v algs bsize version h td l S ND Gh Ia Sv2 B) as (new' & Ew); try assumption.
  - rewrite Ei. apply init_info_ok; [exact (tags_of_ok _ _ _ Ti)|exact Fd].
  - rewrite Ei. apply no_bom_init. exact Nb.
  - rewrite Ei. exact (std_tag_dir _ _ S0).
  - unfold profile_version, required_info. rewrite Ei, init_info_version. reflexivity.
  - apply good_listfile; cbn; auto.
  - apply good_listfile; cbn; auto.
  - exists new', old'. unfold amend_bag_with, amend. unfold bindM. rewrite El, Ew. reflexivity.
Qed.


(** ** Aggregations without payload files *)

(** Nothing was listed so far, and there is no table on disk. *)
Definition no_table (h : hb) : Prop := hb_lu h = None /\ iter_file_lookup h = Err EMissingFile.

Lemma no_table_cur h : no_table h -> cur_table h = Ok [].
Proof. intros [L I]. unfold cur_table, disk_lookup. rewrite L, I. reflexivity. Qed.

Lemma entries_lists fs nm : forall h h' d, cur_table h = Ok d -> forM fs (fun f => add_file_lookup f nm) h = (h', Ok tt) ->
  exists d', cur_table h' = Ok d' /\ forall f, In f fs -> od_get f d' = Some nm.
Proof.
  induction fs as [|f fs IH]; intros h h' d C H; cbn [forM] in H.
  - injection H as <-. exists d. split; [exact C|intros f []].
  - apply bindM_ok in H. destruct H as ([] & h1 & H1 & H).
    assert (F0 : f <> []) by (intros ->; discriminate H1). assert (N0 : nm <> []) by (intros ->; destruct f; discriminate H1).
    destruct (add_lookup_effect f nm h d F0 N0 C) as (h1' & R & L & _). rewrite R in H1. injection H1 as <-.
    assert (C1 : cur_table h1' = Ok (od_set f nm d)) by (unfold cur_table; rewrite L; reflexivity).
    destruct (in_dec (list_eq_dec N.eq_dec) f fs) as [I|I].
    + destruct (IH _ _ _ C1 H) as (d' & C' & X). exists d'. split; [exact C'|]. intros g [<-|G]; auto.
    + assert (Y : forall fs h h' d, ~ In f fs -> cur_table h = Ok d -> forM fs (fun f => add_file_lookup f nm) h = (h', Ok tt) ->
        exists d', cur_table h' = Ok d' /\ od_get f d' = od_get f d).
      { clear - N0. induction fs as [|g fs IH]; intros h h' d I C H; cbn [forM] in H; [injection H as <-; eauto|].
        apply bindM_ok in H. destruct H as ([] & h1 & H1 & H). assert (G0 : g <> []) by (intros ->; discriminate H1).
        destruct (add_lookup_effect g nm h d G0 N0 C) as (h1' & R & L & _). rewrite R in H1. injection H1 as <-.
        assert (C1 : cur_table h1' = Ok (od_set g nm d)) by (unfold cur_table; rewrite L; reflexivity).
        destruct (IH _ _ _ (fun i => I (or_intror i)) C1 H) as (d' & C' & X). exists d'. split; [exact C'|]. rewrite X. apply od_get_set_other.
        intros ->. apply I. left. reflexivity. }
      destruct (IH _ _ _ C1 H) as (d' & C' & X). destruct (Y fs h1' h' _ I C1 H) as (d'' & C'' & X'). assert (d'' = d') by congruence. subst d''.
      exists d'. split; [exact C'|]. intros g [<-|G]; [rewrite X'; apply od_get_set_same|auto].
Qed.

Lemma update_quiet s h h' : bag_files (s_tree s) -> s_name s <> [] -> (forall p, holds (s_tree s) p = false) -> no_table h ->
  update_for_member s SNone SNone false None h = (h', Ok tt) -> h' = h.
Proof.
  intros B Nn Nh Q H. destruct (default_update s h h' [] B Nn (no_table_cur h Q) H) as (d' & C' & X).
  unfold update_for_member in H. cbn [truthy oget] in H. apply bindM_ok in H. destruct H as ([] & h1 & H1 & H). injection H1 as <-.
  cbn [forM] in H. apply bindM_ok in H. destruct H as ([] & h2 & H1 & H). injection H as <-.
  assert (Y : forall fs, forM fs (fun f => add_file_lookup f (s_name s)) h = (h2, Ok tt) -> h2 = h).
  { intros [|f fs] F; [injection F as <-; reflexivity|]. destruct (entries_lists _ _ _ _ _ (no_table_cur h Q) F) as (d'' & C'' & Z).
    assert (d'' = d') by congruence. subst d''. specialize (Z f (or_introl eq_refl)). rewrite X, Nh in Z. discriminate Z. }
  destruct (src_isfile s (U "data")).
  - apply (Y [U "data"]). cbn [forM]. unfold bindM. rewrite H1. reflexivity.
  - destruct (src_isdir s (U "data")); [|injection H1 as <-; reflexivity]. destruct (walk_selected s (U "data") (fun _ => false)) as [fs|e]; [|discriminate H1].
    apply (Y fs H1).
Qed.

Lemma member_quiet m h h' : no_table h -> add_member_bag m true h = (h', Ok tt) -> no_table h'.
Proof.
  intros [L I] H. unfold add_member_bag in H. apply bindM_ok in H. destruct H as ([] & h1 & H1 & H). apply bindM_ok in H. destruct H as ([] & h2 & H2 & H).
  apply bindM_ok in H. destruct H as ([] & h3 & H3 & H).
  assert (Q1 : no_table h1).
  { destruct (hb_mem h); [injection H1 as <-; split; assumption|]. apply bindM_ok in H1. destruct H1 as (l & h0 & H0 & H1). injection H1 as <-.
    unfold member_bags, member_bags_ro in H0. destruct (hb_mem h), (iter_member_bags h) as [l'|[]]; inversion H0; subst; split; assumption. }
  assert (Q2 : no_table h2) by (injection H2 as <-; destruct (hb_mem h1); exact Q1).
  assert (Q3 : no_table h3).
  { unfold remove_member_bag in H3. set (hx := match hb_mem h2 with Some _ => _ | None => _ end) in H3.
    assert (Qx : no_table hx) by (unfold hx; destruct (hb_mem h2); exact Q2). clearbody hx. destruct Qx as [Lx Ix].
    apply bindM_ok in H3. destruct H3 as (fs & h0 & H0 & H3). unfold files_in_member in H0. rewrite Lx in H0.
    unfold cache_file_lookup in H0. rewrite Ix in H0. injection H0 as <- <-. injection H3 as <-. split; assumption. }
  destruct (hb_mem h3); [|discriminate H]. injection H as <-. exact Q3.
Qed.

Lemma members_quiet ms : forall h h', no_table h -> forM ms (fun m => add_member_bag m true) h = (h', Ok tt) -> no_table h'.
Proof.
  induction ms as [|m ms IH]; intros h h' Q H; cbn [forM] in H; [injection H as <-; exact Q|].
  apply bindM_ok in H. destruct H as ([] & h1 & H1 & H). eapply IH; [|exact H]. eapply member_quiet; eauto.
Qed.

Definition bare (s : src) : Prop := bag_files (s_tree s) /\ s_name s <> [] /\ forall p, holds (s_tree s) p = false.

Lemma bags_quiet bags : Forall bare bags -> forall h h', no_table h -> forM (map default_bag bags) add_amending_bag h = (h', Ok tt) -> no_table h'.
Proof.
  induction 1 as [|b bags (B & Nn & Nh) _ IH]; intros h h' Q H; cbn [map forM] in H; [injection H as <-; exact Q|].
  apply bindM_ok in H. destruct H as ([] & h1 & H1 & H). unfold add_amending_bag in H1. apply bindM_ok in H1. destruct H1 as ([] & h0 & H0 & H1).
  pose proof (member_quiet _ _ _ Q H0) as Q0. apply (update_quiet b) in H1; auto. subst h1. eapply IH; eauto.
Qed.

(** Nothing is listed when nothing is there to be listed. *)
Lemma lists_quiet repr ro old bags new h old' td name t i :
  new = open_hb name t i Codecs -> tag_dir_raw i = Ok td -> name <> [] -> bag_files t -> good_path td -> outside_payload td ->
  (if is_head old then iter_file_lookup old = Ok [] else bare (src_of ro old)) -> Forall bare bags -> (forall p, holds t p = false) ->
  amend_lists repr false ro old (map default_bag bags) (own_member None None []) SNone SNone new = (h, Ok old') -> hb_lu h = None.
Proof.
  intros En Td Nn Bf G O Ho Fb Nh H. 
  assert (S0 : std_tags (init_info repr false old new) td) by (apply init_std; subst new; exact Td).
  unfold amend_lists in H. pose proof (init_new repr false old new) as E. pose proof (init_old repr false old new) as Eo.
  cbv zeta in Eo. destruct (init_multibag_info repr false old new) as [o n]. cbn [fst snd] in E, Eo. subst n. destruct Eo as (Eh & Em & Ef & Ena & Et).
  apply bindM_ok in H. destruct H as ([] & h1 & H1 & H). apply bindM_ok in H. destruct H as ([] & h2 & H2 & H).
  apply bindM_ok in H. destruct H as ([] & h3 & H3 & H). apply bindM_ok in H. destruct H as ([] & h4 & H4 & H). injection H as <- <-.
  assert (D : NoDup (od_keys (hb_tree (set_info new (init_info repr false old new))))) by (subst new; apply wf_nodup; exact (proj1 Bf)).
  destruct (init_members_eff o (set_info new (init_info repr false old new)) h1 td S0 ltac:(subst new; reflexivity) ltac:(subst new; reflexivity) D H1) as (ms & t1 & _ & R1 & D1 & S1 & C1).
  destruct S1 as (Sn & St & _ & Si & _). cbn [hb_name hb_tree hb_info set_tree set_info] in Sn, St, Si.
  assert (S1' : std_tags (hb_info h1) td) by (rewrite Si; exact S0).
  unfold init_file_lookup in H2. apply bindM_ok in H2. destruct H2 as ([] & hc & Hc & H2).
  destruct (clear_eff h1 hc td (std_tag_dir _ _ S1') ltac:(rewrite St; exact D1) Hc) as (t2 & -> & R2 & _ & Rn & _).
  set (hc := set_lu (set_tree h1 t2) None) in *.
  assert (Qc : no_table hc) by (split; [reflexivity|apply (missing_lookup hc td S1' Rn)]).
  assert (Q2 : no_table h2).
  { rewrite Eh, Ef in H2. destruct (is_head old).
    - rewrite Ho in H2. injection H2 as <-. exact Qc.
    - destruct Ho as (B & N0 & N1). apply update_quiet in H2; [subst h2; exact Qc| | | |exact Qc]; unfold src_of in *; cbn [s_tree s_name] in *;
        rewrite ?Et, ?Ena; assumption. }
  assert (T2 : hb_tree h2 = t2 /\ hb_name h2 = name).
  { assert (X : only_table hc h2).
    { rewrite Eh, Ef in H2. destruct (is_head old); [rewrite Ho in H2; injection H2 as <-; apply only_table_refl|exact (update_only _ _ _ _ _ _ H2)]. }
    destruct X as (_ & (X1 & X2 & _) & _). split; [exact X2|]. rewrite X1. unfold hc. cbn [hb_name set_lu set_tree]. rewrite Sn. subst new. reflexivity. }
  assert (C2 : exists l, cur_members h2 = Ok l).
  { destruct (init_lookup_eff ro o h1 h2 td _ S1' ltac:(rewrite St; exact D1) C1) as (? & ? & _ & _ & _ & _ & _ & C & _); [|eauto].
    unfold init_file_lookup. unfold bindM. rewrite Hc. exact H2. }
  destruct C2 as [l2 C2].
  assert (Tb2 : table_ok h2 []) by (split; [apply no_table_cur; exact Q2|split; constructor]).
  destruct (bags_eff _ _ _ _ _ C2 Tb2 H3) as (_ & _ & (Sn3 & St3 & _)).
  pose proof (bags_quiet bags Fb h2 h3 Q2 H3) as Q3.
  unfold list_itself in H4. apply bindM_ok in H4. destruct H4 as ([] & h5 & H5 & H4). pose proof (member_quiet _ _ _ Q3 H5) as Q5.
  assert (R1' : reset_step td t = Ok t1) by (subst new; exact R1). rewrite St in R2.
  destruct (reset_payload td t t1 t2 G O Bf R1' R2) as (Bf2 & Hp).
  assert (X5 : hb_tree h5 = t2 /\ hb_name h5 = name).
  { destruct (bags_eff _ _ _ _ _ C2 Tb2 H3) as (C3 & (d3 & T3) & _). destruct (add_member_eff _ _ _ _ _ H5 C3 T3) as (_ & _ & (Y1 & Y2 & _)).
    split; [rewrite Y2, St3; exact (proj1 T2)|rewrite Y1, Sn3; exact (proj2 T2)]. }
  destruct X5 as (X5 & X6). apply update_quiet in H4; [subst h4; exact (proj1 Q5)| | | |exact Q5]; unfold src_of; cbn [s_tree s_name]; rewrite ?X5, ?X6; auto.
  intros p. rewrite Hp. apply Nh.
Qed.

(** Without a table of files, a head bag cannot be amended. *)
Lemma untabled_fails v algs bsize repr ro old bags version new new' old' :
  is_head old = true -> (exists e, iter_file_lookup old = Err e) ->
  amend_bag_with v algs bsize repr ro old bags version new <> (new', Ok old').
Proof.
  intros Eh [e Ie] H. unfold amend_bag_with, amend in H. apply bindM_ok in H. destruct H as (o & h & H & _).
  unfold amend_lists in H. pose proof (init_old repr false old new) as Eo. cbv zeta in Eo. destruct (init_multibag_info repr false old new) as [o' n].
  cbn [fst] in Eo. destruct Eo as (Eh' & _ & Ef & _). apply bindM_ok in H. destruct H as ([] & h1 & _ & H). apply bindM_ok in H. destruct H as ([] & h2 & H & _).
  unfold init_file_lookup in H. apply bindM_ok in H. destruct H as ([] & h3 & _ & H). rewrite Eh', Eh, Ef, Ie in H. discriminate H.
Qed.
