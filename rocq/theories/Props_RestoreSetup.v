(** * Where a restoration reads and writes (C121) *)

Require Import String NArith PeanoNat Bool List Lia Permutation.
From Verif Require Import PyBase PyFacts Fs FsFacts TagDir BagIt BagItProofs HeadBag Access HeadBagProofs3 Restore RestoreProofs RestoreProofs2 RestoreProofs3 Props_Restore FindMember Props_FindMember RestoreSetup.
Import ListNotations.
Open Scope N_scope.

(** The place that a path leads to: the names on the way from the root. It
    starts at the root if the path begins with a slash, and in the current
    directory otherwise. *)
Definition leads (y : system) (p : pystr) : list pystr :=
  if startswith p (U "/") then resolve [] p else resolve (resolve [] (y_cwd y)) p.

(** The usual way to write the path to a place. *)
Definition absolute (l : list pystr) : pystr := U "/" ++ join (U "/") l.

(** Systems may treat paths that begin with exactly two slashes in their own
    way, and so does [abspath]. *)
Definition plain_start (p : pystr) : Prop := ~ exists rest, p = U "//" ++ rest /\ startswith rest (U "/") = false.

(** The current directory is given as an absolute path. *)
Definition plain_system (y : system) : Prop := startswith (y_cwd y) (U "/") = true /\ plain_start (y_cwd y).

Lemma plain_slash p : startswith p [SLASH] = true -> plain_start p -> initial_slashes p = [SLASH].
Proof.
  intros A P. unfold initial_slashes. rewrite A. destruct (startswith p [SLASH; SLASH]) eqn:E; [|reflexivity]. cbn [andb].
  destruct (startswith p [SLASH; SLASH; SLASH]) eqn:E3; [reflexivity|]. exfalso. apply P. apply startswith_iff in E. destruct E as [r ->].
  exists r. split; [reflexivity|]. exact E3.
Qed.

Lemma abspath_leads y p : plain_system y -> plain_start p -> abspath y p = absolute (leads y p).
Proof.
  intros [A Pc] Pp. unfold abspath, absolute, leads. change (U "/") with [SLASH] in *. destruct (startswith p [SLASH]) eqn:E.
  - unfold os_join. rewrite E. rewrite normpath_abs by exact E. rewrite (plain_slash p E Pp). reflexivity.
  - rewrite normpath_join_abs by auto. rewrite (plain_slash _ A Pc). reflexivity.
Qed.

Lemma resolve_ok y p : Forall name_ok (leads y p).
Proof. unfold leads. destruct (startswith p (U "/")); apply resolve_names; [constructor|apply resolve_names; constructor]. Qed.

Lemma absolute_inj l l' : Forall name_ok l -> Forall name_ok l' -> absolute l = absolute l' -> l = l'.
Proof.
  intros H H' E. unfold absolute in E. apply app_inv_head in E.
  assert (K : forall m, Forall name_ok m -> Forall (fun w => ~ In SLASH w) m) by (intros m; apply Forall_impl; intros c X; apply X).
  assert (Z : forall m, Forall name_ok m -> join [SLASH] m = [] -> m = []).
  { intros m Hm Em. destruct m as [|x [|x' m]]; [reflexivity| |]; exfalso; inversion Hm as [|? ? [X _] _]; subst; cbn [join] in Em.
    - congruence.
    - destruct x; [congruence|discriminate Em]. }
  destruct l as [|x l], l' as [|x' l'].
  - reflexivity.
  - symmetry in E. apply Z in E; [discriminate E|exact H'].
  - apply Z in E; [discriminate E|exact H].
  - change (U "/") with [SLASH] in E. rewrite <- (split_join SLASH (x :: l)), E by (try discriminate; auto). apply split_join; [discriminate|auto].
Qed.

Lemma join_snoc l x : l <> [] -> join [SLASH] (l ++ [x]) = join [SLASH] l ++ SLASH :: x.
Proof.
  induction l as [|a l IH]; intros H; [congruence|]. destruct l as [|b l]; [reflexivity|].
  change (a ++ [SLASH] ++ join [SLASH] ((b :: l) ++ [x]) = (a ++ [SLASH] ++ join [SLASH] (b :: l)) ++ SLASH :: x).
  rewrite IH by discriminate. rewrite <- !app_assoc. reflexivity.
Qed.

Lemma rstrip_absolute l : l <> [] -> Forall name_ok l -> rstrip_if (fun c => c =? SLASH) (absolute l) = absolute l.
Proof.
  intros Nl H. destruct (exists_last Nl) as (l' & x & ->). apply Forall_app in H. destruct H as [_ H]. inversion H as [|? ? [X1 X2] _]; subst.
  destruct (exists_last X1) as (x' & c & ->). assert (E : exists s, absolute (l' ++ [x' ++ [c] : pystr]) = s ++ [c]).
  { unfold absolute. change (U "/") with [SLASH]. destruct l' as [|a l']; [exists ([SLASH] ++ x'); cbn [app join]; rewrite <- ?app_assoc; reflexivity|].
    rewrite join_snoc by discriminate. eexists. rewrite app_comm_cons, !app_assoc. reflexivity. }
  destruct E as [s E]. refine (eq_trans (f_equal _ E) (eq_trans _ (eq_sym E))). apply rstrip_if_last.
  destruct (N.eqb_spec c SLASH) as [->|_]; [exfalso; apply X2, in_app_iff; right; left; reflexivity|reflexivity].
Qed.

Lemma dirname_absolute l : Forall name_ok l -> os_dirname (absolute l) = absolute (removelast l).
Proof.
  intros H. destruct l as [|a l] using rev_ind; [reflexivity|]. clear IHl. rewrite removelast_last. apply Forall_app in H. destruct H as [H1 H2].
  inversion H2 as [|? ? [X1 X2] _]; subst.
  assert (E : rsplit_slash (absolute (l ++ [a])) = Some (match l with [] => [] | _ => absolute l end, a)).
  { apply rsplit_slash_some. split; [|exact X2]. unfold absolute. change (U "/") with [SLASH]. destruct l as [|b l]; [reflexivity|].
    rewrite join_snoc by discriminate. rewrite <- app_assoc. reflexivity. }
  unfold os_dirname. rewrite E. destruct l as [|b l]; [reflexivity|]. rewrite rstrip_absolute by (try discriminate; exact H1). reflexivity.
Qed.

Lemma first_slash q : In SLASH q -> exists a b, q = a ++ SLASH :: b /\ ~ In SLASH a.
Proof.
  induction q as [|c q IH]; intros H; [destruct H|]. destruct (N.eq_dec c SLASH) as [->|D]; [exists [], q; split; [reflexivity|intros []]|].
  destruct H as [H|H]; [congruence|]. destruct (IH H) as (a & b & -> & Na). exists (c :: a), b. split; [reflexivity|]. intros [E|E]; auto.
Qed.

Lemma split_on_snoc q : split_on SLASH (q ++ [SLASH]) = split_on SLASH q ++ [[]].
Proof.
  destruct (in_dec N.eq_dec SLASH q) as [H|H].
  2: { rewrite split_on_app by exact H. rewrite (split_on_none SLASH q H). reflexivity. }
  remember (length q) as n eqn:E. assert (L : (length q <= n)%nat) by lia. clear E. revert q H L. induction n as [|n IH]; intros q H L.
  { destruct q; [destruct H|cbn in L; lia]. }
  destruct (first_slash q H) as (a & b & -> & Na). rewrite <- app_assoc. cbn [app]. rewrite (split_on_app SLASH a (b ++ [SLASH]) Na), (split_on_app SLASH a b Na). cbn [app]. f_equal.
  rewrite app_length in L. cbn [length] in L. destruct (in_dec N.eq_dec SLASH b) as [Hb|Hb]; [apply IH; [exact Hb|lia]|].
  rewrite split_on_app by exact Hb. rewrite (split_on_none SLASH b Hb). reflexivity.
Qed.

Lemma resolve_snoc dir q : resolve dir (q ++ [SLASH]) = resolve dir q.
Proof. unfold resolve. rewrite split_on_snoc, fold_left_app. reflexivity. Qed.

Lemma bag_path_leads y p : plain_system y -> plain_start p -> leads y p <> [] -> leads y (bag_path p) = leads y p /\ plain_start (bag_path p).
Proof.
  intros Y P Np. unfold bag_path. destruct (endswith p [SLASH]) eqn:E; [|auto]. apply endswith_iff in E. destruct E as [q ->].
  rewrite removelast_last. destruct q as [|c q]; [exfalso; apply Np; reflexivity|]. unfold leads in *. change (U "/") with [SLASH] in *.
  change (startswith ((c :: q) ++ [SLASH]) [SLASH]) with ((SLASH =? c) && startswith (q ++ [SLASH]) []) in *.
  change (startswith (c :: q) [SLASH]) with ((SLASH =? c) && startswith q []). rewrite !startswith_nil in *. split; [rewrite !resolve_snoc; reflexivity|].
  intros (rest & Er & Ns). change (c :: q = SLASH :: SLASH :: rest) in Er. inversion Er; subst. destruct rest as [|x rest].
  - apply Np. reflexivity.
  - apply P. exists ((x :: rest) ++ [SLASH]). split; [reflexivity|]. change (U "/") with [SLASH] in *.
    change ((SLASH =? x) && startswith rest [] = false) in Ns. change ((SLASH =? x) && startswith (rest ++ [SLASH]) [] = false).
    rewrite startswith_nil in *. exact Ns.
Qed.

Lemma join_absolute l n : Forall name_ok l -> name_ok n -> BagIt.os_join (absolute l) n = absolute (l ++ [n]).
Proof.
  intros H [X1 X2]. unfold BagIt.os_join. assert (Sn : startswith n [SLASH] = false).
  { destruct (startswith n [SLASH]) eqn:E; [|reflexivity]. apply startswith_iff in E. destruct E as [t ->]. destruct X2. left. reflexivity. }
  rewrite Sn. destruct l as [|a l]; [reflexivity|]. destruct (endswith (absolute (a :: l)) [SLASH]) eqn:E.
  - exfalso. apply endswith_iff in E. destruct E as [t E]. pose proof (rstrip_absolute (a :: l) ltac:(discriminate) H) as R. rewrite E in R.
    rewrite rstrip_if_app in R by (constructor; [apply N.eqb_refl|constructor]). destruct (rstrip_if_split (fun c => c =? SLASH) t) as (w & Ew & _).
    apply (f_equal (@length N)) in R. apply (f_equal (@length N)) in Ew. rewrite app_length in *. cbn [length] in R. lia.
  - unfold absolute. change (U "/") with [SLASH]. rewrite join_snoc by discriminate. rewrite <- app_assoc. reflexivity.
Qed.

(** ** The arguments *)

(** The path of the head bag, as given. *)
Definition arg_path (a : bag_arg) : pystr := match a with APath p | ABag p => p end.

(** Where the head bag is, and where the restored bag goes: to the head bag if
    no destination is given. *)
Definition head_place (y : system) (head : bag_arg) : list pystr := leads y (arg_path head).
Definition dest_place (y : system) (head : bag_arg) (dest : option bag_arg) : list pystr :=
  match dest with
  | Some (APath []) | None => head_place y head
  | Some a => leads y (arg_path a)
  end.

(** No path begins with exactly two slashes, and the head bag is not the root
    of the file system. *)
Definition plain_args (y : system) (head : bag_arg) (dest : option bag_arg) : Prop :=
  plain_system y /\ plain_start (arg_path head) /\ head_place y head <> [] /\ (forall a, dest = Some a -> plain_start (arg_path a)).

Lemma setup_head_ok y head hp : plain_system y -> plain_start (arg_path head) -> head_place y head <> [] -> setup_head y head = Ok hp ->
  leads y hp = head_place y head /\ plain_start hp.
Proof.
  intros Y P Nh H. destruct head as [p|p]; cbn [setup_head] in H; [|inversion H; subst; auto].
  destruct (y_exists y p); cbn [negb] in H; [|discriminate H]. apply bind_ok in H. destruct H as (b & _ & H). destruct b; cbn [negb] in H; [|discriminate H].
  apply bind_ok in H. destruct H as (u & _ & H). inversion H; subst. apply bag_path_leads; auto.
Qed.

Lemma restorer_ok y head dest comp fetcher s : plain_args y head dest -> restorer y head dest comp fetcher = Ok s ->
  let h := head_place y head in let d := dest_place y head dest in
  su_dest s = absolute d /\ (su_inplace s = true <-> d = h) /\ y_isdir y (absolute (removelast d)) = true /\
  su_cache s = match comp with
               | Some (c :: p) => c :: p
               | _ => if fetcher then absolute (d ++ [U "multibag"; U "_membercache"]) else absolute (removelast h)
               end.
Proof.
  intros (Y & Ph & Nh & Pd) H h d. unfold restorer in H. apply bind_ok in H. destruct H as (hp & Hh & H).
  destruct (setup_head_ok _ _ _ Y Ph Nh Hh) as [Lh Ps].
  assert (X : exists p i, match dest with None | Some (APath []) => (hp, true) | Some (APath p) | Some (ABag p) => (p, false) end = (p, i) /\
    leads y p = d /\ plain_start p /\ (i = true -> d = h)).
  { unfold d, h, dest_place. destruct dest as [[[|c p]|p]|].
    - exists hp, true. auto.
    - exists (c :: p), false. split; [reflexivity|]. split; [reflexivity|]. split; [exact (Pd _ eq_refl)|intros X; discriminate X].
    - exists p, false. split; [reflexivity|]. split; [destruct p; reflexivity|]. split; [exact (Pd _ eq_refl)|intros X; discriminate X].
    - exists hp, true. auto. }
  destruct X as (p & i & E & Lp & Pp & Hi). rewrite E in H. rewrite (abspath_leads y p Y Pp), Lp, (abspath_leads y hp Y Ps), Lh in H. fold h in H.
  assert (Kd : Forall name_ok d) by (rewrite <- Lp; apply resolve_ok). assert (Kh : Forall name_ok h) by apply resolve_ok.
  rewrite !dirname_absolute in H by auto. destruct (y_isdir y (absolute (removelast d))) eqn:Ed; cbn [negb] in H; [|discriminate H].
  inversion H; subst s; cbn [su_dest su_inplace su_cache]. split; [reflexivity|]. split; [|split; [reflexivity|]].
  - rewrite orb_true_iff, streq_eq. split; [intros [X|X]; [auto|apply absolute_inj; auto; unfold absolute; f_equal; exact X]|intros X; right; congruence].
  - assert (M : name_ok (U "multibag")) by (split; [discriminate|intros X; vm_compute in X; repeat (destruct X as [X|X]; [discriminate X|]); exact X]).
    assert (M2 : name_ok (U "_membercache")) by (split; [discriminate|intros X; vm_compute in X; repeat (destruct X as [X|X]; [discriminate X|]); exact X]).
    rewrite join_absolute by auto. rewrite join_absolute by (auto; apply Forall_app; auto). rewrite <- app_assoc. destruct comp as [[|c q]|]; reflexivity.
Qed.

(** ** The theorems *)

(** The restored bag goes where the destination leads; the head bag is taken
    to be restored in place exactly if both lead to the same place, in whatever
    way they are written. Members are looked for in the directory given, else
    in the restored bag, under multibag/_membercache, if they can be fetched,
    and else in the directory that holds the head bag. *)
Theorem C121_setup : forall y head dest comp fetcher s, plain_args y head dest -> restorer y head dest comp fetcher = Ok s ->
  su_dest s = absolute (dest_place y head dest) /\
  (su_inplace s = true <-> dest_place y head dest = head_place y head) /\
  (forall c, comp = Some c -> c <> [] -> su_cache s = c) /\
  (comp = None \/ comp = Some [] -> su_cache s = if fetcher then absolute (dest_place y head dest ++ [U "multibag"; U "_membercache"])
                                                else absolute (removelast (head_place y head))).
Proof.
  intros y head dest comp fetcher s A H. destruct (restorer_ok _ _ _ _ _ _ A H) as (D & I1 & _ & K). split; [exact D|]. split; [exact I1|]. rewrite K. split.
  - intros c -> Nc. destruct c; [congruence|reflexivity].
  - intros [-> | ->]; reflexivity.
Qed.
Print Assumptions C121_setup.

(** Two ways to write the same places give the same setup. *)
Theorem C121_spelling : forall y head1 head2 dest1 dest2 comp fetcher s1 s2, plain_args y head1 dest1 -> plain_args y head2 dest2 ->
  head_place y head1 = head_place y head2 -> dest_place y head1 dest1 = dest_place y head2 dest2 ->
  restorer y head1 dest1 comp fetcher = Ok s1 -> restorer y head2 dest2 comp fetcher = Ok s2 ->
  su_dest s1 = su_dest s2 /\ su_inplace s1 = su_inplace s2 /\ su_cache s1 = su_cache s2.
Proof.
  intros y head1 head2 dest1 dest2 comp fetcher s1 s2 A1 A2 Eh Ed H1 H2.
  destruct (restorer_ok _ _ _ _ _ _ A1 H1) as (D1 & I1 & _ & K1). destruct (restorer_ok _ _ _ _ _ _ A2 H2) as (D2 & I2 & _ & K2).
  rewrite Eh, Ed in *. split; [congruence|]. split; [apply eq_true_iff_eq; tauto|]. rewrite K1, K2. reflexivity.
Qed.
Print Assumptions C121_spelling.

(** A restoration can be set up exactly if the head bag is there, is a head
    bag and can be opened (or is open already), and there is a directory for
    the restored bag to go to. *)
Definition usable (y : system) (head : bag_arg) : Prop :=
  match head with ABag _ => True | APath p => y_exists y p = true /\ y_ishead y p = Ok true /\ y_open y p = Ok tt end.

Theorem C121_possible : forall y head dest comp fetcher, plain_args y head dest ->
  ((exists s, restorer y head dest comp fetcher = Ok s) <->
   usable y head /\ y_isdir y (absolute (removelast (dest_place y head dest))) = true).
Proof.
  intros y head dest comp fetcher A. split.
  - intros [s H]. split; [|exact (proj1 (proj2 (proj2 (restorer_ok _ _ _ _ _ _ A H))))]. destruct head as [p|p]; [|exact Logic.I].
    unfold restorer in H. apply bind_ok in H. destruct H as (hp & H & _). cbn [setup_head] in H. cbn [usable].
    destruct (y_exists y p); cbn [negb] in H; [|discriminate H]. apply bind_ok in H. destruct H as (b & Eb & H). destruct b; cbn [negb] in H; [|discriminate H].
    apply bind_ok in H. destruct H as ([] & Eu & _). auto.
  - intros [Hu Hd]. assert (Sh : exists hp, setup_head y head = Ok hp).
    { destruct head as [p|p]; [|exists p; reflexivity]. destruct Hu as (U1 & U2 & U3). exists (bag_path p). cbn [setup_head]. rewrite U1, U2. cbn. rewrite U3. reflexivity. }
    destruct Sh as [hp Sh]. destruct A as (Y & Ph & Nh & Pd). destruct (setup_head_ok _ _ _ Y Ph Nh Sh) as [Lh Ps]. unfold restorer. rewrite Sh. cbn [bind].
    assert (K : forall p, plain_start p -> leads y p = dest_place y head dest -> y_isdir y (os_dirname (abspath y p)) = true).
    { intros p Pp E. rewrite (abspath_leads y p Y Pp), E, dirname_absolute; [exact Hd|rewrite <- E; apply resolve_ok]. }
    destruct dest as [[[|c p]|p]|].
    + rewrite K by auto. eexists. reflexivity.
    + rewrite K by (auto; exact (Pd _ eq_refl)). eexists. reflexivity.
    + rewrite K; [eexists; reflexivity|exact (Pd _ eq_refl)|destruct p; reflexivity].
    + rewrite K by auto. eexists. reflexivity.
Qed.
Print Assumptions C121_possible.

(** What goes wrong otherwise. *)
Theorem C121_errors : forall y p dest comp fetcher,
  (y_exists y p = false -> restorer y (APath p) dest comp fetcher = Err EOS) /\
  (y_exists y p = true -> y_ishead y p = Ok false -> restorer y (APath p) dest comp fetcher = Err EMultibag) /\
  (plain_args y (APath p) dest -> usable y (APath p) -> y_isdir y (absolute (removelast (dest_place y (APath p) dest))) = false ->
   restorer y (APath p) dest comp fetcher = Err EOS).
Proof.
  intros y p dest comp fetcher. unfold restorer. cbn [setup_head]. split; [intros ->; reflexivity|]. split; [intros -> ->; reflexivity|].
  intros (Y & Ph & Nh & Pd) Hu Hd. assert (Sh : setup_head y (APath p) = Ok (bag_path p)).
  { destruct Hu as (U1 & U2 & U3). cbn [setup_head]. rewrite U1, U2. cbn. rewrite U3. reflexivity. }
  destruct (setup_head_ok _ _ _ Y Ph Nh Sh) as [Lh Ps]. cbn [setup_head] in Sh. rewrite Sh. cbn [bind].
  assert (K : forall q, plain_start q -> leads y q = dest_place y (APath p) dest -> y_isdir y (os_dirname (abspath y q)) = false).
  { intros q Pq E. rewrite (abspath_leads y q Y Pq), E, dirname_absolute; [exact Hd|rewrite <- E; apply resolve_ok]. }
  destruct dest as [[[|c q]|q]|].
  + rewrite K by auto. reflexivity.
  + rewrite K by (auto; exact (Pd _ eq_refl)). reflexivity.
  + rewrite K; [reflexivity|exact (Pd _ eq_refl)|destruct q; reflexivity].
  + rewrite K by auto. reflexivity.
Qed.
Print Assumptions C121_errors.

(** By default, a member bag that is beside the head bag is the one that is
    used, and nothing that is not beside the head bag is used. *)
Lemma full_join_absolute l n : Forall name_ok l -> name_ok n -> full_join (absolute l) n = absolute (l ++ [n]).
Proof.
  intros H Hn. rewrite <- join_absolute by auto. unfold full_join, BagIt.os_join, TagDir.os_join. destruct (startswith n [SLASH]); [reflexivity|].
  destruct (absolute l) as [|c q] eqn:E; [discriminate E|]. unfold ends_slash, endswith. change (rev [SLASH]) with [SLASH].
  destruct (rev (c :: q)) as [|x r]; [reflexivity|]. change (startswith (x :: r) [SLASH]) with ((SLASH =? x) && startswith r []). rewrite startswith_nil, andb_true_r, N.eqb_sym. reflexivity.
Qed.

Theorem C121_beside : forall y head dest comp s k order n, plain_args y head dest -> comp = None \/ comp = Some [] ->
  restorer y head dest comp false = Ok s -> Permutation order archive_endings -> n <> [] -> ~ In SLASH n ->
  let beside := absolute (removelast (head_place y head) ++ [n]) in
  (d_isdir k beside = true -> get_member_bag k order None (su_cache s) n = Some beside) /\
  (forall p, get_member_bag k order None (su_cache s) n = Some p -> p = beside \/ exists e, In e archive_endings /\ p = beside ++ e).
Proof.
  intros y head dest comp s k order n A Hc H P N1 N2 beside. destruct (C121_setup _ _ _ _ _ _ A H) as (_ & _ & _ & K). specialize (K Hc). cbn match in K.
  assert (Kh : Forall name_ok (removelast (head_place y head))).
  { pose proof (resolve_ok y (arg_path head)) as F. fold (head_place y head) in F. apply Forall_forall. intros x Hx. rewrite Forall_forall in F. apply F.
    destruct (head_place y head) as [|a l]; [destruct Hx|]. rewrite (app_removelast_last a (l := a :: l)) by discriminate. apply in_app_iff. left. exact Hx. }
  assert (J : full_join (su_cache s) n = beside) by (rewrite K; apply full_join_absolute; [exact Kh|split; assumption]).
  assert (Cn : su_cache s <> []) by (rewrite K; discriminate). destruct (C108_fetched k order (su_cache s) n Cn P) as (F1 & _ & F3).
  pose proof (C108_found k order (su_cache s) n P) as F. rewrite J in F. split.
  - intros D. apply F1. unfold find_member_bag. rewrite J, D. reflexivity.
  - intros p G. destruct (find_member_bag k order (su_cache s) n) as [q|] eqn:E; [|rewrite F3 in G by reflexivity; discriminate G].
    rewrite (F1 None q eq_refl) in G. inversion G; subst q. destruct F as [[F _]|(_ & _ & e & Ie & F)]; [left; exact F|right; exists e; auto].
Qed.
Print Assumptions C121_beside.

(** Directories are made only where the restored bag goes: the bag itself and,
    inside it, the directory for fetched members, when no other directory was
    asked for. (The head bag is in some directory that exists.) *)
Theorem C121_created_partial : forall y head dest comp fetcher s, plain_args y head dest -> comp = None \/ comp = Some [] ->
  y_exists y (absolute (removelast (head_place y head))) = true -> restorer y head dest comp fetcher = Ok s ->
  forall p, In p (create_dest y s) ->
    y_exists y p = false /\ (p = absolute (dest_place y head dest) \/ fetcher = true /\ p = absolute (dest_place y head dest ++ [U "multibag"; U "_membercache"])).
Proof.
  intros y head dest comp fetcher s A Hc Ex H p I1. destruct (C121_setup _ _ _ _ _ _ A H) as (D & _ & _ & K). specialize (K Hc). unfold create_dest in I1.
  rewrite D, K in I1. apply in_app_iff in I1. destruct I1 as [I1|I1].
  - destruct (y_exists y (absolute (dest_place y head dest))) eqn:E; cbn [negb] in I1; [destruct I1|]. destruct I1 as [<-|[]]. auto.
  - destruct fetcher; [|rewrite Ex in I1; destruct I1].
    destruct (y_exists y (absolute (dest_place y head dest ++ [U "multibag"; U "_membercache"]))) eqn:E; cbn [negb andb] in I1; [destruct I1|].
    destruct (startswith _ _) in I1; [|destruct I1]. destruct I1 as [<-|[]]. auto.
Qed.
Print Assumptions C121_created_partial.

(** Both are made if they are missing. *)
Theorem C121_made : forall y head dest comp s, plain_args y head dest -> comp = None \/ comp = Some [] -> restorer y head dest comp true = Ok s ->
  (y_exists y (absolute (dest_place y head dest)) = false -> In (absolute (dest_place y head dest)) (create_dest y s)) /\
  (y_exists y (absolute (dest_place y head dest ++ [U "multibag"; U "_membercache"])) = false ->
   In (absolute (dest_place y head dest ++ [U "multibag"; U "_membercache"])) (create_dest y s)).
Proof.
  intros y head dest comp s A Hc H. destruct (C121_setup _ _ _ _ _ _ A H) as (D & _ & _ & K). specialize (K Hc). cbn match in K. unfold create_dest. rewrite D, K.
  split; intros E; apply in_app_iff; [left; rewrite E; left; reflexivity|right]. rewrite E. cbn [negb andb].
  assert (P : startswith (absolute (dest_place y head dest ++ [U "multibag"; U "_membercache"])) (absolute (dest_place y head dest)) = true).
  { apply startswith_iff. unfold absolute. destruct (dest_place y head dest) as [|a l]; [eexists; reflexivity|]. change (U "/") with [SLASH].
    change [U "multibag"; U "_membercache"] with ([U "multibag"] ++ [U "_membercache"]). rewrite app_assoc, join_snoc by (cbn; discriminate).
    rewrite join_snoc by discriminate. rewrite <- !app_assoc. eexists. rewrite <- app_assoc. reflexivity. }
  rewrite P. left. reflexivity.
Qed.
Print Assumptions C121_made.

(** ** What is not so *)

(** Directories can be made elsewhere: a cache directory that is beside the
    destination is made as well if its name begins with the destination's. *)
Definition one_dir : system :=
  {| y_cwd := U "/x"; y_exists := fun p => streq p (U "/x") || streq p (U "/x/head"); y_isdir := fun p => streq p (U "/x") || streq p (U "/x/head");
     y_ishead := fun p => Ok (streq p (U "head") || streq p (U "/x/head") || streq p (U "/x/head/")); y_open := fun _ => Ok tt |}.

Theorem C121_created_refuted : exists y head dest comp s p rest, plain_args y head dest /\ restorer y head dest comp false = Ok s /\
  In p (create_dest y s) /\ p = absolute (removelast (dest_place y head dest) ++ rest) /\ ~ exists inside, p = absolute (dest_place y head dest ++ inside).
Proof.
  exists one_dir, (ABag (U "head")), (Some (APath (U "dest"))), (Some (U "/x/dest-cache")).
  exists {| su_head := U "head"; su_inplace := false; su_dest := U "/x/dest"; su_cache := U "/x/dest-cache" |}, (U "/x/dest-cache"), [U "dest-cache"].
  split. { split; [|split; [|split]].
    - split; [reflexivity|]. intros (r & E & _). vm_compute in E. discriminate E.
    - intros (r & E & _). vm_compute in E. discriminate E.
    - vm_compute. intros E. discriminate E.
    - intros a E. inversion E; subst. intros (r & X & _). vm_compute in X. discriminate X. }
  split; [vm_compute; reflexivity|]. split; [vm_compute; tauto|]. split; [vm_compute; reflexivity|].
  intros (inside & E). assert (D : dest_place one_dir (ABag (U "head")) (Some (APath (U "dest"))) = [U "x"; U "dest"]) by (vm_compute; reflexivity).
  rewrite D in E. destruct inside as [|a l]; vm_compute in E; discriminate E.
Qed.
Print Assumptions C121_created_refuted.

(** And a cache directory that is inside the restored bag is not made if it is
    given by a relative path. *)
Theorem C121_relative_refuted : exists y head dest comp s, plain_args y head dest /\ restorer y head dest (Some comp) true = Ok s /\
  leads y comp = dest_place y head dest ++ [U "cache"] /\ y_exists y comp = false /\ create_dest y s = [absolute (dest_place y head dest)].
Proof.
  exists one_dir, (ABag (U "head")), (Some (APath (U "dest"))), (U "dest/cache"),
    {| su_head := U "head"; su_inplace := false; su_dest := U "/x/dest"; su_cache := U "dest/cache" |}.
  split. { split; [|split; [|split]].
    - split; [reflexivity|]. intros (r & E & _). vm_compute in E. discriminate E.
    - intros (r & E & _). vm_compute in E. discriminate E.
    - vm_compute. intros E. discriminate E.
    - intros a E. inversion E; subst. intros (r & X & _). vm_compute in X. discriminate X. }
  split; [vm_compute; reflexivity|]. split; [vm_compute; reflexivity|]. split; vm_compute; reflexivity.
Qed.
Print Assumptions C121_relative_refuted.

(** Two slashes at the beginning hide that the bag is to be restored in place. *)
Theorem C121_slashes_refuted : exists y head dest s, restorer y (APath head) (Some (APath dest)) None false = Ok s /\
  resolve [] dest = resolve [] head /\ startswith head (U "/") = true /\ startswith dest (U "/") = true /\ su_inplace s = false.
Proof.
  exists {| y_cwd := U "/x"; y_exists := fun _ => true; y_isdir := fun _ => true; y_ishead := fun _ => Ok true; y_open := fun _ => Ok tt |}, (U "/x/head"), (U "//x/head").
  eexists. split; [vm_compute; reflexivity|]. split; [vm_compute; reflexivity|]. split; [reflexivity|]. split; reflexivity.
Qed.
Print Assumptions C121_slashes_refuted.

(** Such a mistake, or a link, does no harm: copying a bag to itself under
    another name changes nothing. *)
Theorem C121_alias : forall v skip b dest x, wf_tree (rb_tree b) -> open_bag v IoText (rb_loc b) (rb_tree b) = Ok x ->
  (forall p, od_get p (rb_tree b) <> None -> od_get p dest <> None) ->
  restore_from v false skip b dest = Ok dest.
Proof.
  intros v skip b dest [bg es] W O C. unfold restore_from. destruct (streq (rb_loc b) (e_dest v)); [reflexivity|]. rewrite O. cbn [bind].
  assert (E : forall p, In p (od_keys (rb_tree b)) -> exists_ p dest = true).
  { intros p Hp. apply exists_get; [apply good_path_nonempty; exact (wf_good _ W p Hp)|]. apply C. intros X. apply od_get_none in X. contradiction. }
  assert (K : copy_items false skip (rb_tree b) dest = Ok (dest, [])).
  { unfold copy_items. rewrite items_blocks.
    assert (S : forall l, (forall i, In i l -> restore_item false (rb_tree b) (dest, []) i = Ok (dest, [])) -> foldM (restore_item false (rb_tree b)) l (dest, []) = Ok (dest, [])).
    { induction l as [|i l IH]; intros H; [reflexivity|]. cbn [foldM]. rewrite (H i (or_introl eq_refl)). cbn [bind]. apply IH. intros j Hj. apply H. right. exact Hj. }
    apply S. intros i Hi. apply in_flat_map in Hi. destruct Hi as (d & Hd & Hi). unfold block in Hi. destruct (skipped_root skip d); [destruct Hi|].
    destruct Hi as [<-|Hi].
    - cbn [restore_item]. assert (Ed : exists_ d dest = true).
      { destruct Hd as [<-|Hd]; [unfold exists_; apply orb_true_r|]. apply bf_dirs_in in Hd. apply E. exact (dirs_key _ _ Hd). }
      rewrite Ed. reflexivity.
    - unfold dir_items in Hi. apply in_app_iff in Hi. destruct Hi as [Hi|Hi]; apply in_map_iff in Hi; destruct Hi as (f & <- & Hf); apply filter_In in Hf; destruct Hf as [Hf _].
      + apply in_files_in in Hf. destruct Hf as (p & Hp & <- & <-). cbn [restore_item andb bind]. assert (Kp : In p (od_keys (rb_tree b))) by exact (files_key _ _ Hp).
        rewrite pjoin_dirname_basename by exact (wf_good _ W p Kp). rewrite (E p Kp). reflexivity.
      + apply in_subdirs_in in Hf. destruct Hf as (p & Hp & <- & <-). cbn [restore_item]. assert (Kp : In p (od_keys (rb_tree b))) by exact (dirs_key _ _ Hp).
        rewrite pjoin_dirname_basename by exact (wf_good _ W p Kp). rewrite (E p Kp). reflexivity. }
  rewrite K. reflexivity.
Qed.
Print Assumptions C121_alias.

(** ** Cases *)

Lemma one_dir_plain head dest : plain_start (arg_path head) -> head_place one_dir head <> [] -> (forall a, dest = Some a -> plain_start (arg_path a)) -> plain_args one_dir head dest.
Proof. intros H1 H2 H3. split; [|auto]. split; [reflexivity|]. intros (r & E & _). vm_compute in E. discriminate E. Qed.

Example C121_case :
  plain_args one_dir (APath (U "/x/head")) (Some (APath (U "../x/./head/"))) /\ usable one_dir (APath (U "/x/head")) /\
  restorer one_dir (APath (U "/x/head")) (Some (APath (U "../x/./head/"))) None false =
    Ok {| su_head := U "/x/head"; su_inplace := true; su_dest := U "/x/head"; su_cache := U "/x" |} /\
  restorer one_dir (APath (U "/x/head")) (Some (APath (U "new"))) (Some []) true =
    Ok {| su_head := U "/x/head"; su_inplace := false; su_dest := U "/x/new"; su_cache := U "/x/new/multibag/_membercache" |} /\
  restorer one_dir (APath (U "/x/head")) (Some (APath (U "new"))) (Some (U "there")) true =
    Ok {| su_head := U "/x/head"; su_inplace := false; su_dest := U "/x/new"; su_cache := U "there" |} /\
  restorer one_dir (APath (U "/x/head")) (Some (APath (U "a/new"))) None false = Err EOS /\
  restorer one_dir (APath (U "/x/other")) None None false = Err EOS /\
  restorer one_dir (APath (U "/x")) None None false = Err EMultibag /\
  create_dest one_dir {| su_head := U "/x/head"; su_inplace := false; su_dest := U "/x/new"; su_cache := U "/x/new/multibag/_membercache" |} =
    [U "/x/new"; U "/x/new/multibag/_membercache"] /\
  y_exists one_dir (absolute (removelast (head_place one_dir (APath (U "/x/head"))))) = true.
Proof.
  split.
  { apply one_dir_plain; [intros (r & E & _); vm_compute in E; discriminate E|vm_compute; intros E; discriminate E|].
    intros a E. inversion E; subst. intros (r & X & _). vm_compute in X. discriminate X. }
  split; [split; [|split]; vm_compute; reflexivity|].
  split; [vm_compute; reflexivity|]. split; [vm_compute; reflexivity|]. split; [vm_compute; reflexivity|]. split; [vm_compute; reflexivity|].
  split; [vm_compute; reflexivity|]. split; [vm_compute; reflexivity|]. split; vm_compute; reflexivity.
Qed.

Example C121_alias_case :
  match e_find ex_env (U "one") with
  | Some b => wf_treeb (rb_tree b) = true /\ (exists x, open_bag ex_env IoText (rb_loc b) (rb_tree b) = Ok x) /\
              streq (rb_loc b) (e_dest ex_env) = false /\ rb_tree b <> []
  | None => False
  end.
Proof.
  vm_compute. split; [reflexivity|]. split; [eexists; reflexivity|]. split; [reflexivity|intros E; discriminate E].
Qed.
