Require Import String NArith Bool List Lia.
From Verif Require Import PyBase PyFacts Version Tsv TsvProofs Fs FsFacts HeadBag.
Import ListNotations.
Open Scope N_scope.

(** ** Conditions used in the statements *)

(** No leading byte-order mark where it would be dropped. *)
Definition no_bom (r : reader) (s : pystr) : Prop :=
  match r, s with
  | Codecs, c :: _ => c <> BOM
  | _, _ => True
  end.

(** A name that obeys the profile and that reader [r] does not break. *)
Definition storable (r : reader) (s : pystr) : Prop :=
  legal_name s /\ no_brk r s /\ no_bom r s.

Definition storable_entry (r : reader) (kv : pystr * pystr) : Prop :=
  storable r (fst kv) /\ storable r (snd kv).

(** The tags say: a current profile version (0.3 or later), and the tag
    directory is [td]. *)
Definition std_tags (i : infod) (td : pystr) : Prop :=
  tag_dir_raw i = Ok td /\ older_than_03 (profile_version i) = false.

(** Files can be written to the tag directory [td]. *)
Definition tagdir_ok (t : tree) (td : pystr) : Prop :=
  (is_dir td t = true \/ (exists_ td t = false /\ is_dir (dirname td) t = true)) /\
  forall f, In f [F_members; F_lookup; F_deleted] -> is_dir (sjoin td f) t = false.

Lemma std_tag_dir i td : std_tags i td -> tag_dir i = td.
Proof.
  intros [H _]. unfold tag_dir_raw in H. unfold tag_dir.
  destruct (od_get T_TagDir i) as [[s|l]|]; congruence.
Qed.

Lemma storable_legal r kv : storable_entry r kv -> legal_entry r kv.
Proof. intros [(A & B & _) (C & D & _)]. split; split; auto. Qed.

Lemma decode_id r s : no_bom r s -> decode r s = s.
Proof.
  unfold no_bom, decode. destruct r, s as [|c t]; auto. intros H.
  destruct (N.eqb_spec c BOM); [contradiction|reflexivity].
Qed.

Lemma no_bom_app r a b : a <> [] -> no_bom r a -> no_bom r (a ++ b).
Proof. destruct r, a; simpl; congruence. Qed.

Lemma lookup_text_no_bom r d : Forall (storable_entry r) d -> no_bom r (lookup_text d).
Proof.
  intros F. destruct d as [|kv d]; [destruct r; exact I|]. inversion F as [|? ? S _]; subst.
  destruct S as [([T _] & _ & B) _]. simpl. unfold format_lookup. rewrite <- app_assoc.
  apply no_bom_app; auto. apply trimmed_nonempty; auto.
Qed.

Lemma deleted_text_no_bom r l : Forall (storable r) l -> no_bom r (deleted_text l).
Proof.
  intros F. destruct l as [|p l]; [destruct r; exact I|]. inversion F as [|? ? S _]; subst.
  destruct S as ([T _] & _ & B). simpl. rewrite <- app_assoc.
  apply no_bom_app; auto. apply trimmed_nonempty; auto.
Qed.

(** ** Monad plumbing *)

Lemma bindM_ok {A B} (x : M A) (f : A -> M B) h h' b :
  bindM x f h = (h', Ok b) <-> exists a h1, x h = (h1, Ok a) /\ f a h1 = (h', Ok b).
Proof.
  unfold bindM. destruct (x h) as [h1 [a|e]]; split; intros H.
  - eauto.
  - destruct H as (a' & h2 & E & H). congruence.
  - discriminate.
  - destruct H as (a' & h2 & E & H). congruence.
Qed.

Lemma set_tree_id h : set_tree h (hb_tree h) = h.
Proof. destruct h; reflexivity. Qed.

Lemma exists_false p t : exists_ p t = false -> od_get p t = None /\ p <> [].
Proof.
  unfold exists_, is_file, is_dir. intros H. apply orb_false_iff in H as [H1 H2].
  destruct p; [discriminate|]. destruct (od_get (n :: p) t) as [[|]|]; try discriminate.
  split; [auto|discriminate].
Qed.

Lemma ensure_put_ok p c h h' :
  (ensure_tagdir ;; put_file p c) h = (h', Ok tt) ->
  exists t', h' = set_tree h t' /\ read p t' = Some c /\
             (forall q, q <> p -> read q t' = read q (hb_tree h)).
Proof.
  intros H. apply bindM_ok in H as ([] & h1 & H1 & H2).
  unfold put_file in H2. destruct (write_file p c (hb_tree h1)) as [t'|] eqn:W; [|discriminate].
  injection H2 as <-. apply write_file_ok in W.
  assert (E : exists t1, h1 = set_tree h t1 /\ forall q, read q t1 = read q (hb_tree h)).
  { unfold ensure_tagdir in H1. destruct (exists_ (tag_dir (hb_info h)) (hb_tree h)) eqn:X.
    - injection H1 as <-. exists (hb_tree h). rewrite set_tree_id. auto.
    - destruct (mkdir (tag_dir (hb_info h)) (hb_tree h)) as [t1|] eqn:K; [|discriminate].
      injection H1 as <-. exists t1. split; auto. intros q.
      apply mkdir_ok in K. subst t1. apply exists_false in X as [X _].
      unfold read. rewrite od_get_set. destruct (streq_reflect q (tag_dir (hb_info h))) as [->|]; auto.
      rewrite X. reflexivity. }
  destruct E as (t1 & -> & R). exists t'. split; [reflexivity|]. simpl in W. subst t'.
  split.
  - rewrite read_set, streq_refl. reflexivity.
  - intros q N. rewrite read_set. apply streq_neq in N as ->. apply R.
Qed.

Lemma is_dir_set_dir p q t : is_dir p (od_set q NDir t) = is_dir p t || streq p q.
Proof.
  unfold is_dir. destruct p as [|c p]; [reflexivity|]. rewrite od_get_set.
  destruct (streq (c :: p) q); rewrite ?orb_true_r, ?orb_false_r; auto.
Qed.

Lemma is_dir_set_file p q c t : q <> [] -> is_dir q t = false -> is_dir p (od_set q (NFile c) t) = is_dir p t.
Proof.
  intros NE D. unfold is_dir in *. destruct p as [|x p]; [reflexivity|]. rewrite od_get_set.
  destruct (streq_reflect (x :: p) q) as [<-|]; auto.
Qed.

Lemma sjoin_nonempty a b : sjoin a b <> [].
Proof. unfold sjoin. destruct a; discriminate. Qed.

Lemma dirname_sjoin d b : ~ In SLASH b -> dirname (sjoin d b) = d.
Proof. intros H. apply (dirname_app d b H). Qed.

Lemma sjoin_neq td f : f <> [] -> sjoin td f <> td.
Proof.
  intros NE E. apply (f_equal (@length N)) in E. unfold sjoin in E. rewrite !app_length in E. simpl in E. lia.
Qed.

Lemma ensure_put_succeeds f c h :
  In f [F_members; F_lookup; F_deleted] ->
  tagdir_ok (hb_tree h) (tag_dir (hb_info h)) ->
  exists t', (ensure_tagdir ;; put_file (sjoin (tag_dir (hb_info h)) f) c) h = (set_tree h t', Ok tt)
             /\ tagdir_ok t' (tag_dir (hb_info h))
             /\ (NoDup (od_keys (hb_tree h)) -> NoDup (od_keys t')).
Proof.
  set (td := tag_dir (hb_info h)). intros If [Htd Hf].
  assert (NSl : ~ In SLASH f).
  { unfold F_members, F_lookup, F_deleted in If. simpl in If.
    destruct If as [<-|[<-|[<-|[]]]]; vm_compute; intuition discriminate. }
  assert (NEf : f <> []) by (intros ->; simpl in If; destruct If as [H|[H|[H|[]]]]; discriminate).
  assert (E1 : exists t1, ensure_tagdir h = (set_tree h t1, Ok tt) /\ is_dir td t1 = true /\
               (forall f, In f [F_members; F_lookup; F_deleted] -> is_dir (sjoin td f) t1 = false) /\
               (NoDup (od_keys (hb_tree h)) -> NoDup (od_keys t1))).
  { unfold ensure_tagdir. fold td.
    destruct Htd as [D|[NX DP]].
    - exists (hb_tree h). unfold exists_. rewrite D, orb_true_r, set_tree_id. auto.
    - rewrite NX. unfold mkdir. rewrite NX, DP.
      exists (od_set td NDir (hb_tree h)). split; [reflexivity|]. split; [|split; [|apply od_set_NoDup]].
      + rewrite is_dir_set_dir, streq_refl. apply orb_true_r.
      + intros g Hg. rewrite is_dir_set_dir, Hf by auto. simpl. apply streq_neq.
        apply sjoin_neq. intros ->; simpl in Hg; destruct Hg as [H|[H|[H|[]]]]; discriminate. }
  destruct E1 as (t1 & E1 & D1 & N1 & ND1).
  exists (od_set (sjoin td f) (NFile c) t1). split; [|split; [|intros; apply od_set_NoDup; auto]].
  - apply bindM_ok. exists tt, (set_tree h t1). split; auto.
    unfold put_file, write_file. simpl hb_tree. rewrite N1 by auto. rewrite dirname_sjoin by auto.
    rewrite D1. reflexivity.
  - split.
    + left. rewrite is_dir_set_file; auto. apply sjoin_nonempty.
    + intros g Hg. rewrite is_dir_set_file; auto. apply sjoin_nonempty.
Qed.

(** ** Reading back the file lookup (C02) *)

Lemma iter_lookup_read h td text :
  std_tags (hb_info h) td -> read (sjoin td F_lookup) (hb_tree h) = Some text ->
  iter_file_lookup h = parse_file (hb_reader h) parse_lookup_03 (decode (hb_reader h) text).
Proof. intros [E O] R. unfold iter_file_lookup. rewrite E, O. simpl. rewrite R. reflexivity. Qed.

Lemma iter_members_read h td text :
  std_tags (hb_info h) td -> read (sjoin td F_members) (hb_tree h) = Some text ->
  iter_member_bags h = parse_file (hb_reader h) parse_member_03 (decode (hb_reader h) text).
Proof. intros [E O] R. unfold iter_member_bags. rewrite E, O. simpl. rewrite R. reflexivity. Qed.

Lemma Forall_storable_legal r d : Forall (storable_entry r) d -> Forall (legal_entry r) d.
Proof. apply Forall_impl. apply storable_legal. Qed.

Lemma save_lookup_ok h h' d :
  hb_lu h = Some d -> save_file_lookup h = (h', Ok tt) ->
  exists t', h' = set_tree h t' /\
    read (sjoin (tag_dir (hb_info h)) F_lookup) t' = Some (lookup_text d) /\
    (forall q, q <> sjoin (tag_dir (hb_info h)) F_lookup -> read q t' = read q (hb_tree h)).
Proof. unfold save_file_lookup. intros ->. apply ensure_put_ok. Qed.

Lemma lookup_saved_read_back r h h' td d :
  hb_lu h = Some d -> Forall (storable_entry r) d ->
  std_tags (hb_info h) td -> std_tags (hb_dinfo h) td ->
  save_file_lookup h = (h', Ok tt) ->
  iter_file_lookup (reopen r h') = Ok d.
Proof.
  intros L F S S' H. destruct (save_lookup_ok _ _ _ L H) as (t' & -> & R & _).
  rewrite (std_tag_dir _ _ S) in R.
  rewrite (iter_lookup_read _ td (lookup_text d)); auto. simpl.
  rewrite decode_id by (apply lookup_text_no_bom; auto).
  apply lookup_roundtrip, Forall_storable_legal; auto.
Qed.

Lemma lookup_of_iter h d p reread :
  (hb_lu h = None \/ reread = true) -> iter_file_lookup h = Ok d -> NoDup (od_keys d) ->
  snd (lookup_file_ro p reread h) = Ok (od_get p d) /\ snd (lookup_file p reread h) = Ok (od_get p d).
Proof.
  intros C I ND.
  assert (E : lookup_file_ro p reread h = (set_lu h (Some d), Ok (od_get p d))).
  { unfold lookup_file_ro, cache_file_lookup. rewrite I, od_of_pairs_id by auto.
    destruct C as [-> | ->]; [|destruct (hb_lu h)]; reflexivity. }
  unfold lookup_file. rewrite E. auto.
Qed.

Lemma lookup_persist r h h' td d p :
  hb_lu h = Some d -> NoDup (od_keys d) -> Forall (storable_entry r) d ->
  std_tags (hb_info h) td -> std_tags (hb_dinfo h) td ->
  save_file_lookup h = (h', Ok tt) ->
  iter_file_lookup (reopen r h') = Ok d /\
  snd (lookup_file p false (reopen r h')) = snd (lookup_file p false h) /\
  snd (lookup_file_ro p false (reopen r h')) = snd (lookup_file p false h).
Proof.
  intros L ND F S S' H. pose proof (lookup_saved_read_back r h h' td d L F S S' H) as I.
  split; auto.
  destruct (lookup_of_iter (reopen r h') d p false (or_introl eq_refl) I ND) as [A B].
  rewrite A, B. unfold lookup_file, lookup_file_ro. rewrite L. auto.
Qed.

(** ** Histories of lookup operations (C06) *)

Inductive lop : Type :=
| LAdd (p b : pystr)
| LRemove (p : pystr)
| LGet (p : pystr)
| LSave
| LClear.

Definition lop_run (o : lop) : M (option (option pystr)) :=
  match o with
  | LAdd p b => add_file_lookup p b ;; retM None
  | LRemove p => remove_file_lookup p ;; retM None
  | LGet p => do a <- lookup_file p false ; retM (Some a)
  | LSave => save_file_lookup ;; retM None
  | LClear => clear_file_lookup ;; retM None
  end.

(** Run a history, collecting the answers of the lookups. *)
Fixpoint lops_run (l : list lop) : M (list (option pystr)) :=
  match l with
  | [] => retM []
  | o :: t => do a <- lop_run o ;
              do r <- lops_run t ;
              retM (match a with Some x => x :: r | None => r end)
  end.

(** Specification: a finite map with point updates. *)
Definition amap := pystr -> option pystr.
Definition upd (m : amap) (p : pystr) (v : option pystr) : amap :=
  fun q => if streq q p then v else m q.

Fixpoint lops_spec (l : list lop) (m : amap) : list (option pystr) :=
  match l with
  | [] => []
  | LAdd p b :: t => lops_spec t (upd m p (Some b))
  | LRemove p :: t => lops_spec t (upd m p None)
  | LGet p :: t => m p :: lops_spec t m
  | LSave :: t => lops_spec t m
  | LClear :: t => lops_spec t (fun _ => None)
  end.

Definition lop_legal (r : reader) (o : lop) : Prop :=
  match o with
  | LAdd p b => storable r p /\ storable r b
  | LRemove p => p <> []
  | _ => True
  end.

(** What the lookup file on disk says: nothing if there is no file. *)
Definition disk_lookup (h : hb) : res (dict pystr) :=
  match iter_file_lookup h with
  | Ok l => Ok (od_of_pairs l)
  | Err EMissingFile => Ok []
  | Err e => Err e
  end.

Definition wf_table (r : reader) (d : dict pystr) : Prop :=
  NoDup (od_keys d) /\ Forall (storable_entry r) d.

Record lu_inv (td : pystr) (h : hb) (m : amap) : Prop := {
  li_tags : std_tags (hb_info h) td;
  li_ok : tagdir_ok (hb_tree h) td;
  li_nd : NoDup (od_keys (hb_tree h));
  li_disk : exists d, disk_lookup h = Ok d /\ wf_table (hb_reader h) d /\
                      (hb_lu h = None -> forall p, od_get p d = m p);
  li_lu : forall d, hb_lu h = Some d -> wf_table (hb_reader h) d /\ forall p, od_get p d = m p
}.

Lemma wf_table_nil r : wf_table r [].
Proof. split; constructor. Qed.

Lemma storable_nonempty r s : storable r s -> s <> [].
Proof. intros ([T _] & _). apply trimmed_nonempty; auto. Qed.

Lemma od_set_storable r k v d :
  storable r k -> storable r v -> Forall (storable_entry r) d -> Forall (storable_entry r) (od_set k v d).
Proof.
  intros K V F. induction F as [|[k' v'] d S F IH]; simpl.
  - constructor; [split; auto|constructor].
  - destruct (streq k k'); constructor; auto. destruct S; split; auto.
Qed.

Lemma od_del_incl {V} k (d : dict V) x : In x (od_del k d) -> In x d.
Proof.
  induction d as [|[k' v'] d IH]; simpl; auto. destruct (streq k k'); simpl; auto.
  intros [H|H]; auto.
Qed.

Lemma od_del_Forall {V} (P : pystr * V -> Prop) k (d : dict V) : Forall P d -> Forall P (od_del k d).
Proof. rewrite !Forall_forall. intros H x I. apply H. eapply od_del_incl; eauto. Qed.

Lemma wf_table_set r k v d : storable r k -> storable r v -> wf_table r d -> wf_table r (od_set k v d).
Proof. intros K V [ND F]. split; [apply od_set_NoDup; auto|apply od_set_storable; auto]. Qed.

Lemma wf_table_del r k d : wf_table r d -> wf_table r (od_del k d).
Proof. intros [ND F]. split; [apply od_del_NoDup; auto|apply od_del_Forall; auto]. Qed.

(** Loading the cache: after it the cache holds the disk table. *)
Lemma cache_cases h d :
  disk_lookup h = Ok d ->
  (cache_file_lookup h = (set_lu h (Some d), Ok tt)) \/
  (cache_file_lookup h = (h, Err EMissingFile) /\ d = []).
Proof.
  unfold disk_lookup, cache_file_lookup. destruct (iter_file_lookup h) as [l|e].
  - intros H. left. congruence.
  - destruct e; try discriminate. intros H. right. split; [reflexivity|congruence].
Qed.

Lemma disk_lookup_set_lu h x : disk_lookup (set_lu h x) = disk_lookup h.
Proof. reflexivity. Qed.

Lemma inv_set_lu td h m d :
  lu_inv td h m -> wf_table (hb_reader h) d ->
  forall m', (forall p, od_get p d = m' p) -> lu_inv td (set_lu h (Some d)) m'.
Proof.
  intros [A B ND (d0 & D & W & _) C] Wd m' E. constructor; auto.
  - exists d0. rewrite disk_lookup_set_lu. simpl. split; auto. split; auto. discriminate.
  - simpl. intros d1 H. injection H as <-. auto.
Qed.

Definition lop_next (o : lop) (m : amap) : amap :=
  match o with
  | LAdd p b => upd m p (Some b)
  | LRemove p => upd m p None
  | LGet _ | LSave => m
  | LClear => fun _ => None
  end.
Definition lop_ans (o : lop) (m : amap) : option (option pystr) :=
  match o with LGet p => Some (m p) | _ => None end.

Lemma lops_spec_cons o t m :
  lops_spec (o :: t) m =
  match lop_ans o m with Some x => x :: lops_spec t (lop_next o m) | None => lops_spec t (lop_next o m) end.
Proof. destruct o; reflexivity. Qed.

Lemma lop_step td h m o :
  lu_inv td h m -> lop_legal (hb_reader h) o ->
  exists h', lop_run o h = (h', Ok (lop_ans o m)) /\ lu_inv td h' (lop_next o m) /\
    hb_reader h' = hb_reader h /\ hb_dinfo h' = hb_dinfo h.
Proof.
  intros I L. pose proof I as [A B ND (d0 & D & W & N) C].
  destruct o as [p b|p|p| |]; simpl in L.
  - (* add *)
    destruct L as [Lp Lb].
    pose proof (storable_nonempty _ _ Lp) as NP. pose proof (storable_nonempty _ _ Lb) as NB.
    assert (G : exists d, (exists x, add_file_lookup p b h = (set_lu (set_lu h x) (Some (od_set p b d)), Ok tt)) /\
                wf_table (hb_reader h) d /\ forall q, od_get q d = m q).
    { unfold add_file_lookup. destruct p as [|c p]; [congruence|]. destruct b as [|c' b]; [congruence|].
      destruct (hb_lu h) as [d|] eqn:E.
      - exists d. split; [|apply C; auto]. exists (Some d). reflexivity.
      - exists d0. split; [|auto].
        destruct (cache_cases h d0 D) as [-> |[-> ->]]; simpl.
        + exists (Some d0). reflexivity.
        + exists (Some []). reflexivity. }
    destruct G as (d & (x & E) & Wd & G).
    exists (set_lu h (Some (od_set p b d))).
    split; [|split; [|split]].
    + simpl. unfold bindM. rewrite E. reflexivity.
    + eapply inv_set_lu; eauto.
      * apply wf_table_set; auto.
      * intros q. rewrite od_get_set. unfold upd. rewrite G. reflexivity.
    + reflexivity.
    + reflexivity.
  - (* remove *)
    assert (DEL : forall d, wf_table (hb_reader h) d -> (forall q, od_get q d = m q) ->
             wf_table (hb_reader h) (if od_has p d then od_del p d else d) /\
             forall q, od_get q (if od_has p d then od_del p d else d) = upd m p None q).
    { intros d Wd G. destruct (od_has p d) eqn:X.
      - split; [apply wf_table_del; auto|]. intros q. rewrite od_get_del by apply Wd.
        unfold upd. rewrite G. reflexivity.
      - split; auto. intros q. unfold upd. destruct (streq_reflect q p) as [->|]; auto.
        apply od_has_false; auto. }
    simpl. unfold remove_file_lookup, bindM. destruct p as [|c p]; [congruence|].
    destruct (hb_lu h) as [d|] eqn:E.
    + destruct (C d eq_refl) as [Wd G]. destruct (DEL d Wd G) as [W' G'].
      eexists. split; [reflexivity|].
      split; [eapply inv_set_lu; eauto|]. split; reflexivity.
    + destruct (cache_cases h d0 D) as [-> |[-> ->]]; simpl.
      * destruct (DEL d0 W (N eq_refl)) as [W' G'].
        eexists. split; [reflexivity|].
        split; [|split; reflexivity].
        assert (I2 : lu_inv td (set_lu h (Some d0)) m) by (eapply inv_set_lu; eauto).
        apply (inv_set_lu td (set_lu h (Some d0)) m); auto.
      * exists h. split; [reflexivity|].
        split; [|split; reflexivity]. constructor; auto.
        -- exists []. split; auto. split; [apply wf_table_nil|]. intros _ q.
           unfold upd. destruct (streq q (c :: p)); auto.
        -- congruence.
  - (* get *)
    simpl. unfold bindM, lookup_file, lookup_file_ro.
    destruct (hb_lu h) as [d|] eqn:E.
    + destruct (C d eq_refl) as [Wd G]. exists h.
      rewrite G. split; [reflexivity|]. split; auto.
    + destruct (cache_cases h d0 D) as [-> |[-> ->]]; simpl.
      * exists (set_lu h (Some d0)). rewrite (N eq_refl).
        split; [reflexivity|]. split; [|split; auto]. eapply inv_set_lu; eauto.
      * exists h. split; [|split; auto].
        specialize (N eq_refl p). simpl in N. rewrite <- N. reflexivity.
  - (* save *)
    simpl. unfold bindM, save_file_lookup. destruct (hb_lu h) as [d|] eqn:E.
    + destruct (C d eq_refl) as [Wd G].
      pose proof (std_tag_dir _ _ A) as TD.
      destruct (ensure_put_succeeds F_lookup (lookup_text d) h) as (t' & P & B' & ND').
      { simpl; auto. } { rewrite TD; auto. }
      rewrite P. exists (set_tree h t'). split; [reflexivity|].
      split; [|split; reflexivity].
      destruct (ensure_put_ok _ _ _ _ P) as (t2 & E2 & R & _).
      assert (t2 = t') by (apply (f_equal hb_tree) in E2; simpl in E2; congruence). subst t2.
      rewrite TD in *. constructor; auto.
      * exists d. split; [|split; [exact Wd|simpl; congruence]].
        unfold disk_lookup. rewrite (iter_lookup_read _ td (lookup_text d)); auto. simpl.
        rewrite decode_id by (apply lookup_text_no_bom; apply Wd).
        rewrite lookup_roundtrip by (apply Forall_storable_legal, Wd).
        rewrite od_of_pairs_id; [reflexivity|apply Wd].
      * simpl. intros d1 H. assert (d1 = d) by congruence. subst. auto.
    + exists h. split; [reflexivity|]. split; auto.
  - (* clear *)
    simpl. unfold bindM, clear_file_lookup. rewrite (std_tag_dir _ _ A).
    assert (NF : is_dir (sjoin td F_lookup) (hb_tree h) = false) by (apply B; simpl; auto).
    assert (RD : forall t', read (sjoin td F_lookup) t' = None ->
                 disk_lookup (set_lu (set_tree h t') None) = Ok []).
    { intros t' R. unfold disk_lookup, iter_file_lookup. simpl. destruct A as [A1 A2].
      rewrite A1, A2. simpl. rewrite R. reflexivity. }
    destruct (exists_ (sjoin td F_lookup) (hb_tree h)) eqn:X.
    + unfold exists_ in X. rewrite NF, orb_false_r in X. unfold remove_file. rewrite X.
      eexists. split; [reflexivity|]. split; [|split; reflexivity].
      set (t' := od_del (sjoin td F_lookup) (hb_tree h)).
      constructor; auto; simpl.
      * split.
        -- destruct B as [[B1|[B1 B2]] _].
           ++ left. unfold is_dir, t' in *. destruct td as [|c td']; auto.
              rewrite od_get_del_other; auto. apply not_eq_sym, sjoin_neq. discriminate.
           ++ right. split.
              ** unfold exists_, is_file, is_dir, t' in *. destruct td as [|c td']; [rewrite orb_true_r in B1; discriminate|].
                 rewrite od_get_del_other; auto. apply not_eq_sym, sjoin_neq. discriminate.
              ** unfold is_dir, t' in *. destruct (dirname td) as [|c dn] eqn:Q; auto.
                 rewrite od_get_del by auto. destruct (streq_reflect (c :: dn) (sjoin td F_lookup)) as [E|]; auto.
                 exfalso. apply (f_equal (@length BinNums.N)) in E. unfold sjoin in E. rewrite !app_length in E.
                 pose proof (dirname_shorter td) as K. rewrite Q in K.
                 destruct td; [discriminate|]. specialize (K ltac:(discriminate)). simpl in *. lia.
        -- intros f Hf. destruct B as [_ B]. specialize (B f Hf). unfold is_dir, t' in *.
           destruct (sjoin td f) as [|c q] eqn:Q; auto.
           rewrite od_get_del by auto. destruct (streq (c :: q) (sjoin td F_lookup)); auto.
      * apply od_del_NoDup; auto.
      * exists []. split; [|split; [apply wf_table_nil|reflexivity]]. apply RD.
        unfold read, t'. rewrite od_get_del_same by auto. reflexivity.
      * discriminate.
    + eexists. split; [reflexivity|]. split; [|split; reflexivity].
      constructor; auto; [|simpl; discriminate].
      exists []. split; [|split; [apply wf_table_nil|reflexivity]].
      rewrite <- (set_tree_id h) at 1. apply RD.
      unfold exists_ in X. apply orb_false_iff in X as [X _]. unfold is_file in X. unfold read.
      destruct (od_get _ (hb_tree h)) as [[|]|]; congruence.
Qed.

Lemma lops_ok td l h m :
  lu_inv td h m -> Forall (lop_legal (hb_reader h)) l ->
  exists h', lops_run l h = (h', Ok (lops_spec l m)).
Proof.
  revert h m; induction l as [|o l IH]; intros h m I F.
  - exists h. reflexivity.
  - inversion F as [|? ? Lo Fl]; subst.
    destruct (lop_step td h m o I Lo) as (h1 & R & I1 & Er & _).
    rewrite <- Er in Fl. destruct (IH h1 _ I1 Fl) as (h2 & R2).
    exists h2. rewrite lops_spec_cons. simpl. unfold bindM at 1. rewrite R. unfold bindM. rewrite R2.
    destruct (lop_ans o m); reflexivity.
Qed.

Lemma fresh_inv td h d :
  hb_lu h = None -> std_tags (hb_info h) td -> tagdir_ok (hb_tree h) td ->
  NoDup (od_keys (hb_tree h)) -> disk_lookup h = Ok d -> wf_table (hb_reader h) d ->
  lu_inv td h (fun p => od_get p d).
Proof.
  intros E A B ND D W. constructor; auto.
  - exists d. auto.
  - congruence.
Qed.

Lemma lookup_histories td l h d :
  hb_lu h = None -> std_tags (hb_info h) td -> tagdir_ok (hb_tree h) td ->
  NoDup (od_keys (hb_tree h)) -> disk_lookup h = Ok d -> wf_table (hb_reader h) d ->
  Forall (lop_legal (hb_reader h)) l ->
  exists h', lops_run l h = (h', Ok (lops_spec l (fun p => od_get p d))).
Proof. intros. eapply lops_ok; eauto. eapply fresh_inv; eauto. Qed.

(** After the history, a save and a re-opening show the final map. *)
Fixpoint lops_final (l : list lop) (m : amap) : amap :=
  match l with
  | [] => m
  | LAdd p b :: t => lops_final t (upd m p (Some b))
  | LRemove p :: t => lops_final t (upd m p None)
  | LGet _ :: t | LSave :: t => lops_final t m
  | LClear :: t => lops_final t (fun _ => None)
  end.

Lemma lops_spec_app l1 l2 m : lops_spec (l1 ++ l2) m = lops_spec l1 m ++ lops_spec l2 (lops_final l1 m).
Proof. revert m; induction l1 as [|[] l1 IH]; intros m; simpl; auto. rewrite IH; reflexivity. Qed.

Lemma lops_run_app l1 l2 h h1 a1 :
  lops_run l1 h = (h1, Ok a1) ->
  lops_run (l1 ++ l2) h =
  match lops_run l2 h1 with (h2, Ok a2) => (h2, Ok (a1 ++ a2)) | (h2, Err e) => (h2, Err e) end.
Proof.
  revert h a1; induction l1 as [|o l1 IH]; simpl; intros h a1 H.
  - injection H as <- <-. simpl. destruct (lops_run l2 h) as [h2 [a|e]]; reflexivity.
  - unfold bindM at 1 in H. destruct (lop_run o h) as [h0 [x|e]] eqn:E; [|discriminate].
    unfold bindM at 1 in H. destruct (lops_run l1 h0) as [h3 [y|e]] eqn:E2; [|discriminate].
    simpl in H. injection H as <- <-.
    unfold bindM at 1. rewrite E. unfold bindM at 1. rewrite (IH _ _ E2).
    destruct (lops_run l2 h3) as [h2 [a|e]]; [|reflexivity].
    simpl. destruct x; reflexivity.
Qed.

Lemma lops_inv td l h m :
  lu_inv td h m -> Forall (lop_legal (hb_reader h)) l ->
  exists h', lops_run l h = (h', Ok (lops_spec l m)) /\ lu_inv td h' (lops_final l m) /\
             hb_reader h' = hb_reader h /\ hb_dinfo h' = hb_dinfo h.
Proof.
  revert h m; induction l as [|o l IH]; intros h m I F.
  - exists h. auto.
  - inversion F as [|? ? Lo Fl]; subst.
    destruct (lop_step td h m o I Lo) as (h1 & R & I1 & Er & Ed).
    rewrite <- Er in Fl. destruct (IH h1 _ I1 Fl) as (h2 & R2 & I2 & Er2 & Ed2).
    exists h2. split; [|split; [|split; congruence]].
    + rewrite lops_spec_cons. simpl. unfold bindM at 1. rewrite R. unfold bindM. rewrite R2.
      destruct (lop_ans o m); reflexivity.
    + destruct o; exact I2.
Qed.

Lemma disk_lookup_reopen h : hb_dinfo h = hb_info h -> disk_lookup (reopen (hb_reader h) h) = disk_lookup h.
Proof. intros E. unfold disk_lookup, iter_file_lookup, reopen. simpl. rewrite E. reflexivity. Qed.

(** After any history followed by a save, opening the bag again shows the
    final map. *)
Lemma lookup_history_saved td l h d :
  hb_lu h = None -> std_tags (hb_info h) td -> std_tags (hb_dinfo h) td ->
  tagdir_ok (hb_tree h) td ->
  NoDup (od_keys (hb_tree h)) -> disk_lookup h = Ok d -> wf_table (hb_reader h) d ->
  Forall (lop_legal (hb_reader h)) l ->
  exists h', lops_run (l ++ [LSave]) h = (h', Ok (lops_spec l (fun p => od_get p d))) /\
    forall p, snd (lookup_file p false (reopen (hb_reader h) h'))
              = Ok (lops_final l (fun p => od_get p d) p).
Proof.
  intros E A A' B ND D W F. pose proof (fresh_inv td h d E A B ND D W) as I.
  destruct (lops_inv td l h _ I F) as (h1 & R1 & I1 & Er & Ed).
  destruct (lop_step td h1 _ LSave I1 Logic.I) as (h2 & R2 & I2 & Er2 & Ed2).
  exists h2. split.
  - rewrite (lops_run_app _ _ _ _ _ R1). cbn [lops_run]. unfold bindM at 1. rewrite R2. simpl.
    rewrite app_nil_r. reflexivity.
  - set (m := lops_final l (fun p => od_get p d)) in *.
    assert (K : exists d2, disk_lookup (reopen (hb_reader h) h2) = Ok d2 /\ NoDup (od_keys d2) /\ forall p, od_get p d2 = m p).
    { assert (RO : disk_lookup (reopen (hb_reader h) h2) = disk_lookup h2).
      { rewrite <- Er, <- Er2. unfold disk_lookup, iter_file_lookup, reopen. simpl.
        destruct (li_tags _ _ _ I2) as [T1 T2]. destruct A' as [T3 T4].
        rewrite Ed2, Ed, T1, T2, T3, T4. reflexivity. }
      rewrite RO.
      simpl in R2. unfold bindM in R2. destruct (save_file_lookup h1) as [h3 [[]|]] eqn:S; [|discriminate].
      injection R2 as ->.
      destruct (hb_lu h1) as [d1|] eqn:L1.
      - destruct (li_lu _ _ _ I1 d1 L1) as [[ND1 F1] G1]. exists d1. split; [|auto].
        destruct (save_lookup_ok _ _ _ L1 S) as (t' & -> & R & _).
        rewrite (std_tag_dir _ _ (li_tags _ _ _ I1)) in R.
        unfold disk_lookup. rewrite (iter_lookup_read _ td (lookup_text d1)); auto;
          [|apply (li_tags _ _ _ I1)]. simpl.
        rewrite decode_id by (apply lookup_text_no_bom; auto).
        rewrite lookup_roundtrip by (apply Forall_storable_legal; auto).
        rewrite od_of_pairs_id by auto. reflexivity.
      - unfold save_file_lookup in S. rewrite L1 in S. injection S as <-.
        destruct (li_disk _ _ _ I1) as (d1 & D1 & [ND1 _] & G1). exists d1. auto. }
    destruct K as (d2 & K & ND2 & G). intros p. rewrite <- G.
    unfold disk_lookup in K. unfold lookup_file, lookup_file_ro, cache_file_lookup. simpl hb_lu.
    destruct (iter_file_lookup (reopen (hb_reader h) h2)) as [l2|e].
    + injection K as <-. reflexivity.
    + destruct e; try discriminate. injection K as <-. reflexivity.
Qed.
