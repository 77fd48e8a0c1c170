Require Import String NArith PeanoNat Bool List Lia.
From Verif Require Import PyBase PyFacts Tsv TsvProofs Fs FsFacts HeadBag BagIt.
Import ListNotations.
Open Scope N_scope.

(** * Tag files *)

Lemma pylines_lf_app r x rest :
  pylines r (x ++ LF :: rest) = pylines r (x ++ [LF]) ++ pylines r rest.
Proof.
  remember (length x) as n. assert (L : (length x <= n)%nat) by lia. clear Heqn. revert x L.
  induction n as [|n IH]; intros x L.
  - destruct x; [|simpl in L; lia]. cbn [app pylines].
    assert (is_brk r LF = true) as -> by (destruct r; reflexivity).
    destruct rest; reflexivity.
  - destruct x as [|c x].
    + cbn [app pylines]. assert (is_brk r LF = true) as -> by (destruct r; reflexivity).
      destruct rest; reflexivity.
    + simpl in L. cbn [app]. cbn [pylines]. destruct (is_brk r c) eqn:B.
      * destruct x as [|d x].
        -- cbn [app]. destruct ((c =? 13) && (LF =? 10)) eqn:E.
           ++ reflexivity.
           ++ cbn [app]. f_equal.
              specialize (IH [] ltac:(simpl; lia)). cbn [app] in IH. rewrite IH. reflexivity.
        -- cbn [app]. destruct ((c =? 13) && (d =? 10)).
           ++ cbn [app]. f_equal. rewrite IH by (simpl in *; lia). reflexivity.
           ++ cbn [app]. f_equal. specialize (IH (d :: x) ltac:(simpl in *; lia)).
              cbn [app] in IH. exact IH.
      * rewrite IH by lia. destruct (pylines r (x ++ [LF])) eqn:E; [|reflexivity].
        pose proof (pylines_concat r (x ++ [LF])) as K. rewrite E in K.
        destruct x; discriminate.
Qed.

Lemma pylines_tags r kvs :
  pylines r (tags_text kvs) = flat_map (fun kv => pylines r (tag_line kv)) kvs.
Proof.
  induction kvs as [|[k v] kvs IH]; [reflexivity|].
  unfold tags_text in *. cbn [flat_map]. rewrite <- IH.
  unfold tag_line at 1 3. cbn [fst snd].
  replace ((k ++ [COLON; SP] ++ v ++ [LF]) ++ flat_map tag_line kvs)
    with ((k ++ [COLON; SP] ++ v) ++ LF :: flat_map tag_line kvs)
    by (rewrite <- !app_assoc; reflexivity).
  rewrite pylines_lf_app. repeat rewrite <- app_assoc. reflexivity.
Qed.

Lemma rstrip_if_mid p a c b : p c = false -> rstrip_if p (a ++ c :: b) = a ++ c :: rstrip_if p b.
Proof.
  intros H. assert (E : rstrip_if p (c :: b) = c :: rstrip_if p b).
  { simpl. destruct (rstrip_if p b); auto. rewrite H; auto. }
  rewrite rstrip_if_app_neq; rewrite E; [reflexivity|discriminate].
Qed.

Lemma pylines_prefix r a v :
  Forall (fun c => is_brk r c = false) a ->
  pylines r (a ++ v ++ [LF]) =
    match pylines r (v ++ [LF]) with l :: ls => (a ++ l) :: ls | [] => [a] end.
Proof.
  intros H. induction H as [|c a Hc _ IH].
  - cbn [app]. destruct (pylines r (v ++ [LF])) eqn:E; auto.
    pose proof (pylines_concat r (v ++ [LF])) as K. rewrite E in K. destruct v; discriminate.
  - cbn [app pylines]. rewrite Hc, IH. destruct (pylines r (v ++ [LF])); reflexivity.
Qed.

(** Names that tag files can hold: trimmed, without colon and line break. *)
Definition tag_name_ok (r : reader) (k : pystr) : Prop :=
  trimmed k /\ ~ In COLON k /\ no_brk r k.

(** Plain values: empty or trimmed, on one line. *)
Definition tag_value_ok (r : reader) (v : pystr) : Prop :=
  (v = [] \/ trimmed v) /\ no_brk r v.

(** Folded values: every line break is followed by whitespace and then
    something else. *)
Definition folded (r : reader) (v : pystr) : Prop :=
  match pylines r (v ++ [LF]) with
  | [] => True
  | _ :: ls => Forall (fun l => starts_ws l = true /\ blank l = false) ls
  end.

(** What reading makes of a folded value: blanks at the end of its first
    line are lost. *)
Definition unfold_value (r : reader) (v : pystr) : pystr :=
  match pylines r (v ++ [LF]) with
  | [] => []
  | l :: ls => strip (rstrip_if is_ws (SP :: l) ++ concat ls)
  end.

Lemma parse_cont cur k v ls rest :
  cur = Some (k, v) -> Forall (fun l => starts_ws l = true /\ blank l = false) ls ->
  parse_tag_lines cur (ls ++ rest) = parse_tag_lines (Some (k, v ++ concat ls)) rest.
Proof.
  intros -> H. revert v. induction H as [|l ls [H1 H2] _ IH]; intros v.
  - cbn [app concat]. rewrite app_nil_r. reflexivity.
  - cbn [app parse_tag_lines]. rewrite H2, H1. rewrite IH. cbn [concat]. rewrite app_assoc. reflexivity.
Qed.

Lemma strip_first a s c t : a = c :: t -> is_ws c = false -> strip (a ++ s) = rstrip_if is_ws (a ++ s).
Proof. intros -> H. unfold strip. cbn [app]. rewrite lstrip_if_head by auto. reflexivity. Qed.

Lemma parse_tag_one r cur k v rest :
  tag_name_ok r k -> folded r v ->
  exists v', strip v' = unfold_value r v /\
  parse_tag_lines cur (pylines r (tag_line (k, v)) ++ rest) =
    let? x := parse_tag_lines (Some (k, v')) rest in Ok (flush_tag cur ++ x).
Proof.
  intros (Tk & Ck & Bk) F. unfold folded, unfold_value in *.
  unfold tag_line. cbn [fst snd].
  replace (k ++ [COLON; SP] ++ v ++ [LF]) with ((k ++ [COLON; SP]) ++ v ++ [LF])
    by (rewrite <- app_assoc; reflexivity).
  rewrite pylines_prefix.
  2:{ apply Forall_app; split; [exact Bk|]. destruct r; repeat constructor. }
  destruct (pylines r (v ++ [LF])) as [|l ls] eqn:E.
  { pose proof (pylines_concat r (v ++ [LF])) as K. rewrite E in K. destruct v; discriminate. }
  exists (rstrip_if is_ws (SP :: l) ++ concat ls). split; [reflexivity|].
  pose proof Tk as [(c & t & Ec & Wc) _].
  cbn [app parse_tag_lines].
  assert (Bl : blank ((k ++ [COLON; SP]) ++ l) = false).
  { rewrite Ec. cbn. rewrite Wc. reflexivity. }
  assert (Sw : starts_ws ((k ++ [COLON; SP]) ++ l) = false).
  { rewrite Ec. cbn. exact Wc. }
  rewrite Bl, Sw.
  assert (St : strip ((k ++ [COLON; SP]) ++ l) = k ++ COLON :: rstrip_if is_ws (SP :: l)).
  { rewrite <- app_assoc. rewrite (strip_first k _ c t Ec Wc). cbn [app].
    apply rstrip_if_mid. reflexivity. }
  rewrite St. rewrite split1_app by auto. rewrite (strip_trimmed k Tk).
  rewrite (parse_cont _ k _ ls rest eq_refl F). reflexivity.
Qed.

Lemma parse_tags_gen r kvs : forall cur,
  Forall (fun kv => tag_name_ok r (fst kv) /\ folded r (snd kv)) kvs ->
  parse_tag_lines cur (flat_map (fun kv => pylines r (tag_line kv)) kvs)
  = Ok (flush_tag cur ++ map (fun kv => (fst kv, unfold_value r (snd kv))) kvs).
Proof.
  induction kvs as [|[k v] kvs IH]; intros cur H.
  - cbn. rewrite app_nil_r. reflexivity.
  - inversion H as [|? ? [Hk Hv] H']; subst. cbn [fst snd] in *. cbn [flat_map].
    destruct (parse_tag_one r cur k v (flat_map (fun kv => pylines r (tag_line kv)) kvs) Hk Hv)
      as (v' & Ev & E).
    rewrite E, IH by auto. cbn [bind]. f_equal. f_equal.
    unfold flush_tag. destruct Hk as ((Tk & _) & _). destruct Tk as (c & t & -> & _).
    rewrite Ev. reflexivity.
Qed.

Lemma parse_tags_folded r kvs :
  Forall (fun kv => tag_name_ok r (fst kv) /\ folded r (snd kv)) kvs ->
  parse_tags r (tags_text kvs) = Ok (map (fun kv => (fst kv, unfold_value r (snd kv))) kvs).
Proof.
  intros H. unfold parse_tags. rewrite pylines_tags. rewrite parse_tags_gen by auto. reflexivity.
Qed.

Lemma pylines_plain r v : no_brk r v -> pylines r (v ++ [LF]) = [v ++ [LF]].
Proof. intros H. rewrite (pylines_app r v []) by exact H. reflexivity. Qed.

Lemma plain_folded r v : tag_value_ok r v -> folded r v /\ unfold_value r v = v.
Proof.
  intros [V B]. unfold folded, unfold_value. rewrite pylines_plain by auto. split; [constructor|].
  cbn [concat]. rewrite app_nil_r.
  destruct V as [->|T].
  - reflexivity.
  - replace (SP :: v ++ [LF]) with ((SP :: v) ++ [LF]) by reflexivity.
    rewrite rstrip_if_app by apply lf_ws.
    destruct T as [T1 (t & c & -> & Wc)].
    replace (SP :: t ++ [c]) with ((SP :: t) ++ [c]) by reflexivity.
    rewrite rstrip_if_last by auto.
    change ((SP :: t) ++ [c]) with ([SP] ++ (t ++ [c])).
    rewrite strip_ws_app by (repeat constructor).
    apply strip_trimmed. split; auto. exists t, c; auto.
Qed.

Lemma parse_tags_plain r kvs :
  Forall (fun kv => tag_name_ok r (fst kv) /\ tag_value_ok r (snd kv)) kvs ->
  parse_tags r (tags_text kvs) = Ok kvs.
Proof.
  intros H. rewrite parse_tags_folded.
  - f_equal. rewrite <- (map_id kvs) at 2. apply map_ext_in. intros [k v] I.
    rewrite Forall_forall in H. destruct (H _ I) as [_ Hv]. cbn [fst snd] in *.
    destruct (plain_folded r v Hv) as [_ ->]. reflexivity.
  - eapply Forall_impl; [|exact H]. intros [k v] [Hk Hv]. split; auto.
    apply plain_folded; auto.
Qed.

(** Values of a tag in a loaded tag dictionary, in order. *)
Definition tag_values (d : infod) (k : pystr) : list pystr :=
  match od_get k d with
  | None => []
  | Some (IStr v) => [v]
  | Some (IList l) => l
  end.

(** Values listed for a name in a list of pairs, in order. *)
Definition values_of (k : pystr) (kvs : list (pystr * pystr)) : list pystr :=
  map snd (filter (fun kv => streq (fst kv) k) kvs).

Lemma add_tag_values d kv k :
  tag_values (add_tag d kv) k = tag_values d k ++ (if streq (fst kv) k then [snd kv] else []).
Proof.
  destruct kv as [k' v]. cbn [fst snd]. unfold add_tag, tag_values. cbn [fst snd].
  destruct (streq_reflect k' k) as [->|D].
  - destruct (od_get k d) as [[s|l]|] eqn:E; rewrite od_get_set_same; reflexivity.
  - rewrite app_nil_r.
    destruct (od_get k' d) as [[s|l]|] eqn:E; rewrite od_get_set_other by congruence; reflexivity.
Qed.

Lemma fold_add_tag_values kvs d k :
  tag_values (fold_left add_tag kvs d) k = tag_values d k ++ values_of k kvs.
Proof.
  revert d. induction kvs as [|[k' v] kvs IH]; intros d; cbn [fold_left].
  - cbn. rewrite app_nil_r. reflexivity.
  - rewrite IH, add_tag_values. cbn [fst snd]. rewrite <- app_assoc. f_equal.
    unfold values_of. cbn [filter fst]. destruct (streq k' k); reflexivity.
Qed.

(** A string stands for one value and a list for several. *)
Definition tag_shape (d : infod) : Prop :=
  forall k l, od_get k d = Some (IList l) -> (2 <= length l)%nat.

Lemma add_tag_shape d kv : tag_shape d -> tag_shape (add_tag d kv).
Proof.
  intros H k l. unfold add_tag. destruct kv as [k' v]. cbn [fst snd].
  destruct (streq_reflect k k') as [->|D].
  - destruct (od_get k' d) as [[s|l']|] eqn:E; rewrite od_get_set_same; intros [= <-]; simpl; auto.
    apply H in E. rewrite app_length. lia.
  - destruct (od_get k' d) as [[s|l']|] eqn:E; rewrite od_get_set_other by auto; apply H.
Qed.

Lemma fold_add_tag_shape kvs d : tag_shape d -> tag_shape (fold_left add_tag kvs d).
Proof. revert d; induction kvs; cbn [fold_left]; auto using add_tag_shape. Qed.

Lemma decode_tags r kvs :
  Forall (fun kv => tag_name_ok r (fst kv) /\ hd 0 (fst kv) <> BOM) kvs ->
  decode r (tags_text kvs) = tags_text kvs.
Proof.
  intros H. destruct r; [reflexivity|]. destruct kvs as [|[k v] kvs]; [reflexivity|].
  inversion H as [|? ? [Hk Hb] _]; subst. cbn [fst] in *.
  destruct Hk as ((Tk & _) & _). destruct Tk as (c & t & -> & _). cbn in Hb |- *.
  destruct (N.eqb_spec c BOM); [congruence|reflexivity].
Qed.

(** * normpath *)

(** Where a path leads, starting from the directory [dir] of an absolute
    file system without symbolic links: "" and "." stay, ".." goes to the
    parent (the root is its own parent), other names descend. *)
Definition step_into (dir : list pystr) (c : pystr) : list pystr :=
  if streq c [] || streq c [DOT] then dir
  else if streq c [DOT; DOT] then removelast dir
  else dir ++ [c].
Definition resolve (dir : list pystr) (p : pystr) : list pystr :=
  fold_left step_into (split_on SLASH p) dir.

Definition no_dotdot (l : list pystr) : Prop := ~ In [DOT; DOT] l.

Lemma norm_step_abs acc c : no_dotdot acc ->
  rev (norm_step true acc c) = step_into (rev acc) c /\ no_dotdot (norm_step true acc c).
Proof.
  intros H. unfold norm_step, step_into.
  destruct (streq c [] || streq c [DOT]); [auto|].
  destruct (streq_reflect c [DOT; DOT]) as [->|D]; cbn [negb].
  - destruct acc as [|top acc]; [auto|].
    destruct (streq_reflect top [DOT; DOT]) as [->|D].
    + exfalso. apply H. left; reflexivity.
    + split.
      * cbn [rev]. rewrite removelast_last. reflexivity.
      * intros I. apply H. right; auto.
  - split; [reflexivity|]. intros [I|I]; [congruence|auto].
Qed.

Lemma norm_fold_abs cs : forall acc, no_dotdot acc ->
  rev (fold_left (norm_step true) cs acc) = fold_left step_into cs (rev acc).
Proof.
  induction cs as [|c cs IH]; intros acc H; [reflexivity|].
  cbn [fold_left]. destruct (norm_step_abs acc c H) as [E H']. rewrite IH by auto. rewrite E. reflexivity.
Qed.

Lemma norm_comps_abs cs : norm_comps true cs = fold_left step_into cs [].
Proof. unfold norm_comps. rewrite norm_fold_abs; [reflexivity|intros []]. Qed.

Definition abs_path (p : pystr) : Prop := startswith p [SLASH] = true.

Lemma initial_slashes_abs p : abs_path p -> initial_slashes p <> [].
Proof.
  unfold abs_path, initial_slashes. intros ->. destruct (_ && _); discriminate.
Qed.

Lemma normpath_abs p : abs_path p ->
  normpath p = initial_slashes p ++ join [SLASH] (resolve [] p).
Proof.
  intros A. unfold normpath, resolve. pose proof (initial_slashes_abs p A) as I.
  destruct (streq_reflect (initial_slashes p) []) as [E|E]; [congruence|]. cbn [negb].
  rewrite norm_comps_abs. destruct (initial_slashes p) as [|c l]; [congruence|]. reflexivity.
Qed.

Lemma startswith_cons c s p : startswith (c :: s) (c :: p) = startswith s p.
Proof. cbn. rewrite N.eqb_refl. reflexivity. Qed.

Lemma initial_slashes_app a b : a <> [] -> endswith a [SLASH] = false ->
  initial_slashes (a ++ SLASH :: b) = initial_slashes a.
Proof.
  intros H He. unfold initial_slashes.
  assert (He' : ~ exists t, a = t ++ [SLASH]).
  { rewrite <- endswith_iff. congruence. }
  destruct a as [|x a]; [congruence|]. cbn [app startswith]. rewrite !startswith_nil.
  destruct (SLASH =? x) eqn:E; [|reflexivity].
  apply N.eqb_eq in E. subst x. cbn [andb].
  destruct a as [|y a].
  { exfalso. apply He'. exists []. reflexivity. }
  cbn [app startswith]. rewrite !startswith_nil. destruct (SLASH =? y) eqn:E; [|reflexivity].
  apply N.eqb_eq in E. subst y. cbn [andb].
  destruct a as [|z a].
  { exfalso. apply He'. exists [SLASH]. reflexivity. }
  cbn [app startswith]. rewrite !startswith_nil. reflexivity.
Qed.

Lemma initial_slashes_app2 a b : endswith a [SLASH] = true -> startswith b [SLASH] = false ->
  initial_slashes (a ++ b) = initial_slashes a.
Proof.
  intros He Hb. apply endswith_iff in He. destruct He as [t ->]. rewrite <- app_assoc. cbn [app].
  assert (Hb2 : forall q, startswith b (SLASH :: q) = false).
  { intros q. destruct b as [|b0 b]; [reflexivity|]. cbn [startswith] in *.
    rewrite startswith_nil, andb_true_r in Hb. rewrite Hb. reflexivity. }
  assert (Hn : forall q, startswith [] (SLASH :: q) = false) by reflexivity.
  unfold initial_slashes.
  destruct t as [|x t].
  { cbn [app startswith]. rewrite !startswith_nil, !Hb2. reflexivity. }
  cbn [app startswith]. rewrite !startswith_nil. destruct (SLASH =? x) eqn:E; [|reflexivity]. cbn [andb].
  destruct t as [|y t].
  { cbn [app startswith]. rewrite !startswith_nil, !Hb2. reflexivity. }
  cbn [app startswith]. rewrite !startswith_nil. destruct (SLASH =? y) eqn:E2; [|reflexivity]. cbn [andb].
  destruct t as [|z t]; cbn [app startswith]; rewrite !startswith_nil; reflexivity.
Qed.

(** Joining a relative path to a directory. *)
Lemma os_join_rel b p : startswith p [SLASH] = false -> b <> [] ->
  initial_slashes (os_join b p) = initial_slashes b /\
  forall abs, norm_comps abs (split_on SLASH (os_join b p))
    = rev (fold_left (norm_step abs) (split_on SLASH p)
             (fold_left (norm_step abs) (split_on SLASH b) [])).
Proof.
  intros Hp Hb. unfold os_join. rewrite Hp. destruct b as [|b0 b]; [congruence|].
  set (bb := b0 :: b) in *. destruct (endswith bb [SLASH]) eqn:He.
  - split; [apply initial_slashes_app2; auto|]. intros abs. unfold norm_comps.
    pose proof He as He2. apply endswith_iff in He2. destruct He2 as [t Et]. rewrite Et.
    rewrite <- app_assoc. cbn [app]. rewrite (split_on_app_gen SLASH t p), fold_left_app.
    rewrite (split_on_app_gen SLASH t []), fold_left_app. cbn. reflexivity.
  - split; [apply initial_slashes_app; auto|]. intros abs. unfold norm_comps.
    cbn [app]. rewrite (split_on_app_gen SLASH bb p), fold_left_app. reflexivity.
Qed.

Lemma absolute_nonempty b : abs_path b -> b <> [].
Proof. intros H ->. discriminate. Qed.

Lemma os_join_absolute b p : abs_path b -> abs_path (os_join b p).
Proof.
  unfold abs_path. intros H. unfold os_join. destruct (startswith p [SLASH]) eqn:E; auto.
  apply startswith_iff in H. destruct H as [t ->]. cbn [app].
  destruct (endswith (SLASH :: t) [SLASH]); apply startswith_iff; eexists; cbn [app]; reflexivity.
Qed.

Lemma norm_comps_no_dotdot cs : forall acc, no_dotdot acc -> no_dotdot (fold_left (norm_step true) cs acc).
Proof.
  induction cs as [|c cs IH]; intros acc H; [exact H|]. cbn [fold_left]. apply IH.
  apply norm_step_abs; auto.
Qed.

Lemma normpath_join_abs b p : abs_path b -> startswith p [SLASH] = false ->
  normpath (os_join b p) = initial_slashes b ++ join [SLASH] (resolve (resolve [] b) p).
Proof.
  intros A Hp. pose proof (os_join_rel b p Hp (absolute_nonempty b A)) as [Ei En].
  rewrite normpath_abs by (apply os_join_absolute; auto). rewrite Ei. f_equal. f_equal.
  unfold resolve. rewrite <- norm_comps_abs, En.
  rewrite norm_fold_abs.
  - rewrite norm_fold_abs by (intros []). reflexivity.
  - apply norm_comps_no_dotdot. intros [].
Qed.

(** A proper component of a resolved location. *)
Definition name_ok (c : pystr) : Prop := c <> [] /\ ~ In SLASH c.

Lemma Forall_removelast {A} (P : A -> Prop) l : Forall P l -> Forall P (removelast l).
Proof.
  induction 1 as [|x l Hx Hl IH]; [constructor|]. cbn. destruct l; [constructor|].
  constructor; auto.
Qed.

Lemma resolve_names p : forall dir, Forall name_ok dir -> Forall name_ok (resolve dir p).
Proof.
  unfold resolve. pose proof (split_on_no_sep SLASH p) as H. induction H as [|c cs Hc _ IH]; intros dir D; [exact D|].
  cbn [fold_left]. apply IH. unfold step_into.
  destruct (streq_reflect c []); [exact D|]. cbn [orb].
  destruct (streq c [DOT]); [exact D|].
  destruct (streq c [DOT; DOT]); [apply Forall_removelast; exact D|].
  apply Forall_app; split; [exact D|]. repeat constructor; auto.
Qed.

Lemma split_on_app_any c a t : exists A0 l h T,
  split_on c a = A0 ++ [l] /\ split_on c t = h :: T /\ split_on c (a ++ t) = A0 ++ (l ++ h) :: T.
Proof.
  induction a as [|x a (A0 & l & h & T & E1 & E2 & E3)].
  - destruct (split_on c t) as [|h T] eqn:E.
    + exfalso. eapply split_on_nonempty; eauto.
    + exists [], [], h, T. auto.
  - cbn [app split_on]. destruct (x =? c).
    + exists ([] :: A0), l, h, T. rewrite E1, E3. auto.
    + rewrite E1, E3. destruct A0 as [|w A0].
      * exists [], (x :: l), h, T. auto.
      * exists ((x :: w) :: A0), l, h, T. auto.
Qed.

(** A joined list of names starts with another one as strings exactly if it
    has the same names up to the last one, whose name is a prefix. *)
Lemma startswith_join D0 d E : Forall name_ok (D0 ++ [d]) -> Forall name_ok E ->
  startswith (join [SLASH] E) (join [SLASH] (D0 ++ [d])) = true <->
  exists x rest, E = D0 ++ (d ++ x) :: rest.
Proof.
  intros HD HE. rewrite startswith_iff.
  assert (SD : split_on SLASH (join [SLASH] (D0 ++ [d])) = D0 ++ [d]).
  { apply split_join; [destruct D0; discriminate|]. eapply Forall_impl; [|exact HD]. intros a [_ H]; exact H. }
  split.
  - intros [t Et].
    destruct E as [|e E].
    { exfalso. cbn in Et. symmetry in Et. apply app_eq_nil in Et. destruct Et as [Et _].
      rewrite Et in SD. cbn in SD. destruct D0 as [|y D0]; cbn in SD; [|destruct D0; discriminate].
      inversion SD; subst. inversion HD as [|? ? [H _]]; congruence. }
    assert (SE : split_on SLASH (join [SLASH] (e :: E)) = e :: E).
    { apply split_join; [discriminate|]. eapply Forall_impl; [|exact HE]. intros a [_ H]; exact H. }
    destruct (split_on_app_any SLASH (join [SLASH] (D0 ++ [d])) t) as (A0 & l & h & T & E1 & E2 & E3).
    rewrite SD in E1. apply app_inj_tail in E1. destruct E1 as [-> ->].
    rewrite <- Et, SE in E3. eauto.
  - intros (x & rest & ->).
    assert (G : forall D0, exists t, join [SLASH] (D0 ++ (d ++ x) :: rest) = join [SLASH] (D0 ++ [d]) ++ t).
    { clear. induction D0 as [|y D0 [t IH]].
      - cbn. destruct rest; [exists x; auto|]. rewrite <- app_assoc. eexists; reflexivity.
      - cbn [app]. destruct (D0 ++ (d ++ x) :: rest) as [|u v] eqn:E; [destruct D0; discriminate|].
        destruct (D0 ++ [d]) as [|u' v'] eqn:E'; [destruct D0; discriminate|].
        cbn [join]. cbn [join] in IH. rewrite IH. exists t. rewrite <- !app_assoc. reflexivity. }
    apply G.
Qed.

Lemma commonprefix_startswith a b : streq (commonprefix a b) a = startswith b a.
Proof.
  revert b. induction a as [|x a IH]; intros [|y b]; cbn; auto.
  destruct (N.eqb_spec x y); cbn; auto. subst. rewrite N.eqb_refl. cbn. apply IH.
Qed.

Lemma startswith_app_same a b c : startswith (a ++ b) (a ++ c) = startswith b c.
Proof. induction a as [|x a IH]; [reflexivity|]. cbn. rewrite N.eqb_refl. exact IH. Qed.

(** The safety check for bags with an absolute location. *)
Lemma dangerous_spec expands bag p D0 d :
  abs_path bag -> resolve [] bag = D0 ++ [d] ->
  path_is_dangerous expands bag p = false <->
  startswith p [SLASH] = false /\ expands p = false /\
  exists x rest, resolve (D0 ++ [d]) p = D0 ++ (d ++ x) :: rest.
Proof.
  intros A R. unfold path_is_dangerous.
  destruct (startswith p [SLASH]) eqn:Hp; [split; [discriminate|intros (? & _); discriminate]|].
  destruct (expands p); [split; [discriminate|intros (_ & ? & _); discriminate]|].
  rewrite negb_false_iff, commonprefix_startswith, normpath_join_abs, (normpath_abs bag), R by auto.
  rewrite startswith_app_same.
  assert (Hd : Forall name_ok (D0 ++ [d])). { rewrite <- R. apply resolve_names. constructor. }
  rewrite startswith_join by (auto using resolve_names). tauto.
Qed.

Lemma canon_spec bag p D0 d :
  abs_path bag -> resolve [] bag = D0 ++ [d] -> startswith p [SLASH] = false ->
  canon_path bag p <> None <->
  exists x rest, resolve (D0 ++ [d]) p = D0 ++ (d ++ x) :: rest.
Proof.
  intros A R Hp. unfold canon_path.
  rewrite normpath_join_abs, (normpath_abs bag), R by auto.
  rewrite startswith_app_same.
  assert (Hd : Forall name_ok (D0 ++ [d])). { rewrite <- R. apply resolve_names. constructor. }
  rewrite <- (startswith_join D0 d) by (auto using resolve_names).
  destruct (startswith (join _ _) _); (split; [intros H; try reflexivity; exfalso; apply H; reflexivity|intros H; discriminate]).
Qed.

(** Good relative paths never climb. *)
Lemma good_component_step abs acc c : good_component c -> norm_step abs acc c = c :: acc.
Proof.
  intros (H1 & H2 & H3). unfold norm_step.
  destruct (streq_reflect c []); [contradiction|]. destruct (streq_reflect c [DOT]); [contradiction|].
  destruct (streq_reflect c [DOT; DOT]); [contradiction|]. reflexivity.
Qed.

Lemma good_fold abs cs : forall acc, Forall good_component cs ->
  fold_left (norm_step abs) cs acc = rev cs ++ acc.
Proof.
  induction cs as [|c cs IH]; intros acc H; [reflexivity|]. inversion H; subst.
  cbn [fold_left rev]. rewrite good_component_step by auto. rewrite IH by auto.
  rewrite <- app_assoc. reflexivity.
Qed.

Lemma good_resolve dir p : good_path p -> resolve dir p = dir ++ split_on SLASH p.
Proof.
  unfold good_path, resolve. intros H. revert dir. induction H as [|c cs (H1 & H2 & H3) _ IH]; intros dir.
  - cbn. rewrite app_nil_r. reflexivity.
  - cbn [fold_left]. unfold step_into at 2.
    destruct (streq_reflect c []); [contradiction|]. destruct (streq_reflect c [DOT]); [contradiction|].
    destruct (streq_reflect c [DOT; DOT]); [contradiction|]. cbn [orb]. rewrite IH.
    rewrite <- app_assoc. reflexivity.
Qed.

Lemma good_path_rel p : good_path p -> startswith p [SLASH] = false.
Proof.
  intros H. destruct p as [|c p]; [reflexivity|]. cbn [startswith]. rewrite startswith_nil, andb_true_r.
  destruct (N.eqb_spec c SLASH) as [->|D].
  - unfold good_path in H. cbn [split_on] in H. rewrite N.eqb_refl in H.
    inversion H as [|? ? (X & _)]; congruence.
  - apply N.eqb_neq. congruence.
Qed.

Lemma good_norm abs p : good_path p -> norm_comps abs (split_on SLASH p) = split_on SLASH p.
Proof.
  intros H. unfold norm_comps. rewrite good_fold by exact H. rewrite app_nil_r, rev_involutive. reflexivity.
Qed.

Lemma good_initial p : startswith p [SLASH] = false -> initial_slashes p = [].
Proof.
  intros H. unfold initial_slashes. rewrite H.
  destruct p as [|c p]; [reflexivity|]. cbn [startswith] in *. rewrite startswith_nil, andb_true_r in H.
  rewrite H. reflexivity.
Qed.

Lemma good_normpath p : good_path p -> normpath p = p.
Proof.
  intros H. unfold normpath. rewrite good_initial by (apply good_path_rel; auto). cbn [streq negb app].
  rewrite good_norm by auto. rewrite join_split. destruct p; [|reflexivity].
  apply good_path_nonempty in H. congruence.
Qed.

(** The path [normpath bag / p] in the form that normpath produces. *)
Definition under (b p : pystr) : pystr :=
  if endswith b [SLASH] then b ++ p else b ++ [SLASH] ++ p.

Lemma join_app (l : list pystr) m : l <> [] -> m <> [] ->
  join [SLASH] (l ++ m) = join [SLASH] l ++ [SLASH] ++ join [SLASH] m.
Proof.
  intros Hl Hm. induction l as [|x l IH]; [congruence|]. cbn [app].
  destruct l as [|y l].
  - cbn [app join]. destruct m; [congruence|]. reflexivity.
  - cbn [app] in *. cbn [join]. change (match l ++ m with [] => y | _ :: _ => y ++ [SLASH] ++ join [SLASH] (l ++ m) end)
      with (join [SLASH] (y :: l ++ m)).
    rewrite IH by discriminate. cbn [join]. rewrite <- !app_assoc. reflexivity.
Qed.

Lemma norm_step_names abs acc c : ~ In SLASH c -> Forall name_ok acc -> Forall name_ok (norm_step abs acc c).
Proof.
  intros Hc Ha. unfold norm_step.
  destruct (streq_reflect c []) as [E|E]; [exact Ha|]. cbn [orb].
  destruct (streq c [DOT]); [exact Ha|].
  assert (K : name_ok c) by (split; auto).
  destruct (negb (streq c [DOT; DOT])); [constructor; auto|].
  destruct acc as [|top acc]; [destruct abs; repeat constructor; auto|].
  inversion Ha; subst. destruct (streq top [DOT; DOT]); auto.
Qed.

Lemma norm_comps_names abs p : Forall name_ok (norm_comps abs (split_on SLASH p)).
Proof.
  unfold norm_comps. apply Forall_rev.
  assert (G : forall cs acc, Forall (fun w => ~ In SLASH w) cs -> Forall name_ok acc ->
                Forall name_ok (fold_left (norm_step abs) cs acc)).
  { induction cs as [|c cs IH]; intros acc H A; [exact A|]. inversion H; subst. cbn [fold_left].
    apply IH; auto using norm_step_names. }
  apply G; [apply split_on_no_sep|constructor].
Qed.

Lemma join_ends l : Forall name_ok l -> l <> [] -> exists t c, join [SLASH] l = t ++ [c] /\ c <> SLASH.
Proof.
  induction 1 as [|x l [Hx Sx] Hl IH]; [congruence|]. intros _.
  destruct l as [|y l].
  - cbn. destruct (exists_last Hx) as (t & c & E). exists t, c. split; auto. intros ->.
    apply Sx. unfold pystr in *. rewrite E. apply in_or_app. right; left; reflexivity.
  - destruct IH as (t & c & E & D); [discriminate|].
    exists (x ++ [SLASH] ++ t), c. split; auto.
    change (join [SLASH] (x :: y :: l)) with (x ++ [SLASH] ++ join [SLASH] (y :: l)).
    rewrite E. rewrite !app_assoc. reflexivity.
Qed.

Lemma endswith_last t c : endswith (t ++ [c]) [SLASH] = (SLASH =? c).
Proof. unfold endswith. rewrite rev_app_distr. cbn [rev app startswith]. rewrite startswith_nil, andb_true_r. reflexivity. Qed.

Lemma normpath_join_good b p : b <> [] -> good_path p -> normpath b <> [DOT] ->
  normpath (os_join b p) = under (normpath b) p.
Proof.
  intros Hb G Hd. pose proof (os_join_rel b p (good_path_rel p G) Hb) as [Ei En].
  unfold normpath at 1. rewrite Ei, En. rewrite good_fold by exact G.
  rewrite rev_app_distr, rev_involutive.
  fold (norm_comps (negb (streq (initial_slashes b) [])) (split_on SLASH b)).
  pose proof (norm_comps_names (negb (streq (initial_slashes b) [])) b) as Hn.
  unfold normpath, under in *. set (cs := norm_comps _ (split_on SLASH b)) in *. set (ini := initial_slashes b) in *.
  assert (Hs : split_on SLASH p <> []) by (apply split_on_nonempty).
  destruct cs as [|c0 cs0] eqn:Ec.
  - cbn [app join]. rewrite join_split. rewrite app_nil_r in *.
    destruct ini as [|i ini'] eqn:Eini; [congruence|].
    assert (Ie : endswith (i :: ini') [SLASH] = true).
    { unfold ini, initial_slashes in Eini. destruct (_ && _); [inversion Eini; reflexivity|].
      destruct (startswith b [SLASH]); inversion Eini; reflexivity. }
    rewrite Ie. reflexivity.
  - rewrite <- Ec in *. rewrite join_app by (auto; congruence). rewrite join_split.
    destruct (join_ends cs Hn ltac:(congruence)) as (t & c & Et & Dc).
    rewrite Et. assert (X : forall z, ini ++ (t ++ [c]) ++ z = (ini ++ t ++ [c]) ++ z) by (intros; rewrite !app_assoc; reflexivity).
    rewrite X. rewrite (app_assoc ini t [c]).
    destruct ((ini ++ t) ++ [c]) as [|y ys] eqn:Ey; [destruct (ini ++ t); discriminate|].
    rewrite <- Ey. rewrite endswith_last. destruct (N.eqb_spec SLASH c); [congruence|].
    rewrite Ey. reflexivity.
Qed.

Lemma normpath_join_dot b p : b <> [] -> good_path p -> normpath b = [DOT] ->
  normpath (os_join b p) = p.
Proof.
  intros Hb G Hd. pose proof (os_join_rel b p (good_path_rel p G) Hb) as [Ei En].
  unfold normpath at 1. rewrite Ei, En. rewrite good_fold by exact G.
  rewrite rev_app_distr, rev_involutive.
  fold (norm_comps (negb (streq (initial_slashes b) [])) (split_on SLASH b)).
  pose proof (norm_comps_names (negb (streq (initial_slashes b) [])) b) as Hn.
  assert (Nd : forall abs, ~ In [DOT] (norm_comps abs (split_on SLASH b))).
  { intros abs. unfold norm_comps. rewrite <- in_rev.
    assert (Gn : forall cs acc, ~ In [DOT] acc -> ~ In [DOT] (fold_left (norm_step abs) cs acc)).
    { induction cs as [|c cs IH]; intros acc A; [exact A|]. cbn [fold_left]. apply IH.
      unfold norm_step. destruct (streq c []); [exact A|]. cbn [orb].
      destruct (streq_reflect c [DOT]) as [E|E]; [exact A|].
      destruct (streq_reflect c [DOT; DOT]) as [E2|E2]; cbn [negb].
      - destruct acc as [|top acc].
        + destruct abs; [intros []|]. intros [I|[]]. congruence.
        + destruct (streq top [DOT; DOT]).
          * intros [I|I]; [congruence|auto].
          * intros I. apply A. right; auto.
      - intros [I|I]; [congruence|auto]. }
    apply Gn. intros []. }
  pose proof (Nd (negb (streq (initial_slashes b) []))) as Nd'.
  unfold normpath in Hd. set (cs := norm_comps _ (split_on SLASH b)) in *. set (ini := initial_slashes b) in *.
  assert (K : ini = [] /\ cs = []).
  { assert (Ic : ini = [] \/ exists l, ini = SLASH :: l).
    { unfold ini, initial_slashes. destruct (_ && _); [right; eexists; reflexivity|].
      destruct (startswith b [SLASH]); [right; eexists; reflexivity|auto]. }
    destruct Ic as [->|[l ->]]; [|discriminate]. split; auto.
    cbn [app] in Hd. destruct cs as [|c cs0] eqn:Ec; auto. exfalso.
    destruct cs0 as [|c1 cs0].
    - cbn in Hd. inversion Hn as [|? ? [X Y] _]; subst. apply Nd'. left. destruct c; [congruence|]. exact Hd.
    - change (join [SLASH] (c :: c1 :: cs0)) with (c ++ [SLASH] ++ join [SLASH] (c1 :: cs0)) in Hd.
      assert (I : In SLASH [DOT]).
      { rewrite <- Hd. destruct c as [|x c]; [left; reflexivity|]. cbn [app]. right. apply in_or_app. right; left; reflexivity. }
      destruct I as [I|[]]. discriminate. }
  destruct K as [K1 K2]. rewrite K1, K2. cbn [app]. rewrite join_split.
  destruct p; [|reflexivity]. apply good_path_nonempty in G. congruence.
Qed.

Lemma under_starts b p : startswith (under b p) b = true.
Proof. unfold under. destruct (endswith b [SLASH]); apply startswith_app. Qed.

(** * Manifests *)

Lemma checksum_set (e : entries) p alg h (d : dict pystr) q a :
  d = match od_get p e with Some d => d | None => [] end ->
  checksum (od_set p (od_set alg h d) e) a q =
    if streq q p && streq a alg then Some h else checksum e a q.
Proof.
  intros ->. unfold checksum. rewrite od_get_set. destruct (streq_reflect q p) as [->|D]; cbn [andb]; auto.
  rewrite od_get_set. destruct (streq_reflect a alg); auto.
  unfold entries, dict in *. destruct (od_get p e); reflexivity.
Qed.

(** What adding one entry does. *)
Lemma add_entry_ok dangerous v1 alg e h p e' :
  add_entry dangerous v1 alg e (h, p) = Ok e' ->
  dangerous p = false /\
  (checksum e alg p = None \/ (checksum e alg p = Some h /\ v1 = false)) /\
  forall a q, checksum e' a q = if streq q p && streq a alg then Some h else checksum e a q.
Proof.
  unfold add_entry. destruct (dangerous p); [discriminate|]. intros H. split; [reflexivity|].
  set (d := match od_get p e with Some d => d | None => [] end) in *.
  assert (Ec : checksum e alg p = od_get alg d).
  { unfold checksum, d. destruct (od_get p e); reflexivity. }
  rewrite Ec. destruct (od_get alg d) as [h'|].
  - destruct (streq h' h) eqn:Eh; [|discriminate]. apply streq_eq in Eh. subst h'. destruct v1; [discriminate|].
    inversion H; subst. split; [auto|]. intros. apply checksum_set. reflexivity.
  - inversion H; subst. split; [auto|]. intros. apply checksum_set. reflexivity.
Qed.

Lemma add_entry_accept dangerous v1 alg e h p :
  dangerous p = false ->
  (checksum e alg p = None \/ (checksum e alg p = Some h /\ v1 = false)) ->
  exists e', add_entry dangerous v1 alg e (h, p) = Ok e'.
Proof.
  intros Hd Hc. unfold add_entry. rewrite Hd.
  set (d := match od_get p e with Some d => d | None => [] end) in *.
  assert (Ec : checksum e alg p = od_get alg d).
  { unfold checksum, d. destruct (od_get p e); reflexivity. }
  rewrite Ec in Hc. destruct (od_get alg d) as [h'|]; [|eauto].
  destruct Hc as [|[E ->]]; [discriminate|]. inversion E; subst. rewrite streq_refl. eauto.
Qed.

(** All manifests as one list of (algorithm, checksum, path). *)
Definition listing (r : reader) (ms : list (pystr * pystr)) : list (pystr * (pystr * pystr)) :=
  flat_map (fun am => map (pair (fst am)) (manifest_lines r (skip_bom (snd am)))) ms.

Definition add1 dangerous v1 (e : entries) (x : pystr * (pystr * pystr)) : res entries :=
  add_entry dangerous v1 (fst x) e (snd x).

Lemma foldM_map {A B S} (f : S -> B -> res S) (g : A -> B) l s :
  foldM f (map g l) s = foldM (fun s x => f s (g x)) l s.
Proof. revert s; induction l; intros s; cbn; auto. destruct (f s (g a)); cbn; auto. Qed.

Lemma foldM_ext {A S} (f g : S -> A -> res S) l s :
  (forall s x, f s x = g s x) -> foldM f l s = foldM g l s.
Proof. intros H. revert s. induction l as [|a l IH]; intros s; cbn; auto. rewrite H. destruct (g s a); cbn; auto. Qed.

Lemma load_flat dangerous v1 r ms e :
  foldM (load_one dangerous v1 r) ms e = foldM (add1 dangerous v1) (listing r ms) e.
Proof.
  revert e. induction ms as [|am ms IH]; intros e; [reflexivity|].
  cbn [foldM]. unfold listing. cbn [flat_map]. rewrite foldM_app, foldM_map.
  unfold load_one at 1.
  rewrite (foldM_ext (add_entry dangerous v1 (fst am)) (fun s x => add1 dangerous v1 s (fst am, x))) by reflexivity.
  destruct (foldM _ (manifest_lines r (skip_bom (snd am))) e); cbn; auto.
Qed.

Lemma listing_iff r ms a h p :
  In (a, (h, p)) (listing r ms) <->
  exists text line, In (a, text) ms /\ In line (pylines r (skip_bom text)) /\ manifest_entry line = Some (h, p).
Proof.
  unfold listing. rewrite in_flat_map. split.
  - intros ([a' text] & I & J). cbn [fst snd] in J. apply in_map_iff in J.
    destruct J as ([h' p'] & E & J). inversion E; subst. unfold manifest_lines in J.
    exists text. assert (G : forall l, In (h, p) (filter_some (map manifest_entry l)) ->
      exists line, In line l /\ manifest_entry line = Some (h, p)).
    { induction l as [|x l IH]; cbn; [intros []|]. destruct (manifest_entry x) eqn:Ex.
      - intros [->|K]; [exists x; auto|]. destruct (IH K) as (y & ? & ?); exists y; auto.
      - intros K. destruct (IH K) as (y & ? & ?); exists y; auto. }
    destruct (G _ J) as (line & ? & ?). exists line; auto.
  - intros (text & line & I & J & E). exists (a, text). split; auto. cbn [fst snd].
    apply in_map_iff. exists (h, p). split; auto. unfold manifest_lines.
    clear I. induction (pylines r (skip_bom text)) as [|x l IH]; [destruct J|]. cbn.
    destruct J as [->|J].
    + rewrite E. left; reflexivity.
    + destruct (manifest_entry x); [right|]; auto.
Qed.

Lemma load_ok dangerous v1 : forall l e e',
  foldM (add1 dangerous v1) l e = Ok e' ->
  (forall a q, checksum e' a q <> None <-> checksum e a q <> None \/ exists h, In (a, (h, q)) l) /\
  (forall a q h, In (a, (h, q)) l -> checksum e' a q = Some h /\ dangerous q = false) /\
  (forall a q h, checksum e a q = Some h -> checksum e' a q = Some h).
Proof.
  induction l as [|[a0 [h0 p0]] l IH]; intros e e' H.
  - cbn in H. inversion H; subst. split; [|split].
    + intros; split; auto. intros [|[? []]]; auto.
    + intros ? ? ? [].
    + auto.
  - cbn [foldM] in H. apply bind_ok in H. destruct H as (e1 & H1 & H2).
    unfold add1 in H1. cbn [fst snd] in H1. apply add_entry_ok in H1. destruct H1 as (Hd & Hc & Hs).
    destruct (IH _ _ H2) as (I1 & I2 & I3). split; [|split].
    + intros a q. rewrite I1, Hs. destruct (streq_reflect q p0) as [->|D1]; cbn [andb].
      * destruct (streq_reflect a a0) as [->|D2].
        -- split; [intros _; right; exists h0; left; reflexivity|intros _; left; discriminate].
        -- split; [intros [|[h I]]; [auto|right; exists h; right; auto]|].
           intros [|[h [I|I]]]; [auto|congruence|right; exists h; auto].
      * split; [intros [|[h I]]; [auto|right; exists h; right; auto]|].
        intros [|[h [I|I]]]; [auto|congruence|right; exists h; auto].
    + intros a q h [E|I]; [|auto]. inversion E; subst. split; auto.
      apply I3. rewrite Hs, !streq_refl. reflexivity.
    + intros a q h E. apply I3. rewrite Hs.
      destruct (streq_reflect q p0) as [->|D1]; cbn [andb]; auto.
      destruct (streq_reflect a a0) as [->|D2]; auto.
      destruct Hc as [Hc|[Hc _]]; congruence.
Qed.

Lemma load_nodup dangerous : forall l e e',
  foldM (add1 dangerous true) l e = Ok e' ->
  NoDup (map (fun x => (fst x, snd (snd x))) l) /\
  forall a h q, In (a, (h, q)) l -> checksum e a q = None.
Proof.
  induction l as [|[a0 [h0 p0]] l IH]; intros e e' H; [split; [constructor|intros ? ? ? []]|].
  cbn [foldM] in H. apply bind_ok in H. destruct H as (e1 & H1 & H2).
  unfold add1 in H1. cbn [fst snd] in H1. apply add_entry_ok in H1. destruct H1 as (Hd & Hc & Hs).
  destruct (IH _ _ H2) as (I1 & I2). split.
  - cbn [map fst snd]. constructor; auto. intros I. apply in_map_iff in I.
    destruct I as ([a [h q]] & E & I). cbn in E. inversion E; subst.
    apply I2 in I. rewrite Hs, !streq_refl in I. discriminate.
  - intros a h q [E|I].
    + inversion E; subst. destruct Hc as [|[_ ?]]; [auto|discriminate].
    + pose proof (I2 _ _ _ I) as K. rewrite Hs in K.
      destruct (streq q p0); cbn [andb] in K; auto.
      destruct (streq a a0); auto; discriminate.
Qed.

(** No two listed checksums for the same path and algorithm differ. *)
Definition no_conflict (l : list (pystr * (pystr * pystr))) : Prop :=
  forall a q h h', In (a, (h, q)) l -> In (a, (h', q)) l -> h = h'.

Lemma load_accept dangerous v1 : forall l e,
  (forall a h q, In (a, (h, q)) l -> dangerous q = false) ->
  no_conflict l ->
  (v1 = true -> NoDup (map (fun x => (fst x, snd (snd x))) l)) ->
  (forall a h q, In (a, (h, q)) l ->
     checksum e a q = None \/ (checksum e a q = Some h /\ v1 = false)) ->
  exists e', foldM (add1 dangerous v1) l e = Ok e'.
Proof.
  induction l as [|[a0 [h0 p0]] l IH]; intros e Hd Hn Hv He; [eexists; reflexivity|].
  destruct (add_entry_accept dangerous v1 a0 e h0 p0) as [e1 E1].
  { eapply Hd; left; reflexivity. }
  { apply He; left; reflexivity. }
  cbn [foldM]. unfold add1 at 1. cbn [fst snd]. rewrite E1. cbn [bind]. apply IH.
  - intros; eapply Hd; right; eauto.
  - intros a q h h' I J. apply (Hn a q); right; auto.
  - intros V. specialize (Hv V). cbn [map] in Hv. inversion Hv; auto.
  - intros a h q I. apply add_entry_ok in E1. destruct E1 as (_ & _ & Hs). rewrite Hs.
    destruct (streq_reflect q p0) as [->|D1]; cbn [andb]; [|apply He; right; auto].
    destruct (streq_reflect a a0) as [->|D2]; [|apply He; right; auto].
    right. assert (h0 = h) by (apply (Hn a0 p0); [left; reflexivity|right; auto]). subst.
    split; auto. destruct v1; auto. exfalso. specialize (Hv eq_refl). cbn [map fst snd] in Hv.
    inversion Hv; subst. apply H1. apply in_map_iff. exists (a0, (h, p0)). auto.
Qed.

(** Lines written by [_record_hash]. *)

(** [decode_filename] leaves [s] unchanged if it holds neither "%0D" nor "%0A". *)
Lemma replace3_id n a b c d s : substr_in [a; b; c] s = false -> replace3 n a b c d s = s.
Proof.
  revert n. induction s as [|x s IH]; intros n H; [destruct n; reflexivity|].
  cbn [substr_in] in H. apply orb_false_iff in H. destruct H as [H1 H2].
  destruct s as [|y [|z t]]; try reflexivity. destruct n; [reflexivity|].
  cbn [replace3]. cbn [startswith] in H1.
  assert (E : (x =? a) && (y =? b) && (z =? c) = false).
  { rewrite (N.eqb_sym x), (N.eqb_sym y), (N.eqb_sym z).
    destruct (a =? x); cbn in *; auto. destruct (b =? y); cbn in *; auto.
    rewrite startswith_nil, andb_true_r in H1. exact H1. }
  rewrite E. f_equal. apply (IH (S n)). exact H2.
Qed.

(** Paths that a manifest line can hold as they are. *)
Record manifest_path (r : reader) (p : pystr) : Prop := {
  mp_trim : trimmed p;
  mp_brk : no_brk r p;
  mp_star : startswith p [STAR] = false;
  mp_good : good_path p;
  mp_0d : substr_in (U "%0D") p = false;
  mp_0a : substr_in (U "%0A") p = false
}.

(** Checksums: not empty, no whitespace, not starting with '#'. *)
Record manifest_hash (h : pystr) : Prop := {
  mh_ne : h <> [];
  mh_ws : Forall (fun c => is_ws c = false) h;
  mh_hash : startswith h [HASH] = false
}.

Lemma hash_line_entry r h p : manifest_hash h -> manifest_path r p ->
  manifest_entry (hash_line h p) = Some (h, p).
Proof.
  intros [H1 H2 H3] [P1 P2 P3 P4 P5 P6]. unfold manifest_entry, hash_line.
  replace (h ++ [SP] ++ p ++ [LF]) with ((h ++ [SP] ++ p) ++ [LF]) by (rewrite <- !app_assoc; reflexivity).
  assert (T : trimmed (h ++ [SP] ++ p)) by (apply trimmed_app; auto using trimmed_no_ws).
  rewrite strip_line by exact T.
  assert (Hn : streq (h ++ [SP] ++ p) [] = false) by (apply streq_neq; apply trimmed_nonempty; exact T).
  rewrite Hn. cbn [orb].
  assert (Hh : startswith (h ++ [SP] ++ p) [HASH] = false).
  { destruct h as [|c h]; [congruence|]. cbn [app startswith] in *. rewrite startswith_nil in *. exact H3. }
  rewrite Hh. unfold split_ws1.
  assert (L : lstrip_if is_ws (h ++ [SP] ++ p) = h ++ [SP] ++ p).
  { destruct h as [|c h]; [congruence|]. inversion H2; subst. cbn [app]. apply lstrip_if_head; auto. }
  rewrite L. destruct (h ++ [SP] ++ p) as [|c0 s0] eqn:E; [destruct h; discriminate|]. rewrite <- E.
  cbn [app]. rewrite span_not_app by (auto; reflexivity).
  destruct P1 as [(c & t & Ep & Wc) _].
  assert (L2 : lstrip_if is_ws (SP :: p) = p).
  { cbn [lstrip_if]. change (is_ws SP) with true. cbn. rewrite Ep. apply lstrip_if_head; auto. }
  rewrite L2. assert (Pn : p <> []) by (rewrite Ep; discriminate). destruct p as [|q0 q]; [congruence|].
  do 2 f_equal.
  assert (L3 : lstrip_if (fun c => c =? STAR) (q0 :: q) = q0 :: q).
  { cbn [startswith] in P3. rewrite startswith_nil, andb_true_r in P3. apply lstrip_if_head.
    rewrite N.eqb_sym. exact P3. }
  rewrite L3, good_normpath by exact P4. unfold decode_filename.
  rewrite (replace3_id 2 37 48 68 CR) by exact P5. rewrite (replace3_id 2 37 48 65 LF) by exact P6. reflexivity.
Qed.

Lemma hash_ws_brk r h : manifest_hash h -> no_brk r h.
Proof.
  intros [_ H _]. eapply Forall_impl; [|exact H]. cbn. intros c Hc.
  destruct (is_brk r c) eqn:E; auto. apply is_brk_ws in E. congruence.
Qed.

Lemma hash_lines r l :
  Forall (fun hp => manifest_hash (fst hp) /\ manifest_path r (snd hp)) l ->
  manifest_lines r (flat_map (fun hp => hash_line (fst hp) (snd hp)) l) = l.
Proof.
  intros H. unfold manifest_lines.
  rewrite (flat_map_ext_in' _ (fun hp => (fst hp ++ [SP] ++ snd hp) ++ [LF])).
  2:{ intros [h p]. unfold hash_line. cbn [fst snd]. rewrite <- !app_assoc. reflexivity. }
  rewrite pylines_flat_map.
  - induction H as [|[h p] l [Hh Hp] _ IH]; [reflexivity|]. cbn [map fst snd].
    pose proof (hash_line_entry r h p Hh Hp) as E. unfold hash_line in E.
    replace (h ++ [SP] ++ p ++ [LF]) with ((h ++ [SP] ++ p) ++ [LF]) in E by (rewrite <- !app_assoc; reflexivity).
    rewrite E. cbn [filter_some]. f_equal. exact IH.
  - intros [h p] I. rewrite Forall_forall in H. destruct (H _ I) as [Hh [P1 P2 _ _ _ _]]. cbn [fst snd] in *.
    apply Forall_app; split; [apply hash_ws_brk; auto|]. apply Forall_app; split; [|exact P2].
    destruct r; repeat constructor.
Qed.
