(** Proofs about moving objects and buckets between two metadata servers. *)
From Verif Require Import Str_Model HashSlot_Model HashSlot_Spec HashSlot_Proofs Owner_Model Owner_Spec Owner_Proofs
  Meta_Model Meta_Spec Meta_Proofs Meta_History Meta_Ids Move_Model Move_Spec.
From stdpp Require Import gmap.
Local Open Scope list_scope.

Lemma same_meta_refl : forall m, same_meta m m.
Proof. done. Qed.

Lemma version_list_in : forall m k v, (k, v) ∈ version_list m <-> m !! k = Some v.
Proof.
  intros m k v. unfold version_list. rewrite elem_of_list_omap. split.
  - intros (k' & _ & H). destruct (m !! k') eqn:E; [|done]. cbn in H. injection H as -> ->. done.
  - intros H. exists k. rewrite H. split; [apply keys_in; by eexists|done].
Qed.

Lemma uid_exists_idx : forall d u, uid_exists d u = false <-> idx_get u (d_uid d) = ∅.
Proof.
  intros d u. unfold uid_exists. destruct (bool_decide_reflect (idx_get u (d_uid d) = ∅)); cbn; split; done.
Qed.

Section move.
Context (sel : str -> Prop) (ds0 : db).
Hypothesis SO : store_ok ds0.
Hypothesis IDS : forall v, moved_version sel ds0 v -> v_hash v <> [] /\ v_uid v <> [].
Hypothesis CROSS : forall v w, moved_version sel ds0 v -> moved_version sel ds0 w -> v_uid v <> v_hash w.

Definition R (dr : db) : Prop :=
  (forall key, sel key -> is_Some (d_meta ds0 !! key) -> part_copied ds0 dr key) /\
  (forall v, moved_version sel ds0 v -> uid_exists dr (v_uid v) = false).

(** [dr'] differs from [dr] only at [key], where it has more. *)
Definition step_at (key : str) (dr dr' : db) : Prop :=
  d_bkt dr' = d_bkt dr /\ (forall k, k <> key -> kept dr dr' k) /\
  (forall m, d_meta dr !! key = Some m -> d_meta dr' !! key = Some m) /\
  (forall b, d_vers dr !! key = Some b -> exists b', d_vers dr' !! key = Some b' /\ vb_map b ⊆ vb_map b').

Lemma step_refl : forall key d, step_at key d d.
Proof. intros. split_and!; [done|done|done|]. intros b H. exists b. done. Qed.

Lemma step_trans : forall key a b c, step_at key a b -> step_at key b c -> step_at key a c.
Proof.
  intros key a b c (A1 & A2 & A3 & A4) (B1 & B2 & B3 & B4). split_and!.
  - congruence.
  - intros k N. destruct (A2 k N), (B2 k N). split; congruence.
  - eauto.
  - intros x H. destruct (A4 x H) as (y & Hy & Sy). destruct (B4 y Hy) as (z & Hz & Sz).
    exists z. split; [done|]. by etrans.
Qed.

Lemma complete_step : forall key k dr dr', R dr' -> sel k -> complete ds0 dr k -> step_at key dr dr' -> complete ds0 dr' k.
Proof.
  intros key k dr dr' [HR _] Hs (m & m' & b & b' & H1 & H2 & H3 & H4 & H5 & H6) (S1 & S2 & S3 & S4).
  destruct (decide (k = key)) as [->|N].
  - destruct (S4 _ H5) as (b2 & Hb2 & Sub). specialize (S3 _ H2).
    destruct (HR key Hs) as [[X _]|(n & n' & c & c' & X1 & X2 & X3 & X4 & X5 & X6)]; [by eexists|congruence|].
    exists m, m', b, b2. split_and!; try done.
    assert (c = b) as -> by congruence. assert (c' = b2) as -> by congruence.
    rewrite H6 in Sub. by apply (anti_symm (⊆)).
  - destruct (S2 k N) as [E1 E2]. exists m, m', b, b'. rewrite E1, E2. done.
Qed.

Lemma recv_meta : forall batch now key m dr, R dr -> sel key -> d_meta ds0 !! key = Some m ->
  let (dr', ok) := receive batch now (IMeta key m) dr in
  ok = true /\ R dr' /\ step_at key dr dr' /\
  exists m' b', d_meta dr' !! key = Some m' /\ same_meta m m' /\ d_vers dr' !! key = Some b'.
Proof.
  intros batch now key m dr [HR HU] Hs Hm. unfold receive, add_meta. cbn [snd fst].
  assert (key <> []) as NE. { intros ->. rewrite (so_meta_name _ SO) in Hm. done. }
  assert (is_Some (d_meta ds0 !! key)) as IS by (by eexists).
  destruct (HR key Hs IS) as [[G1 G2]|(n & n' & b & b' & X1 & X2 & X3 & X4 & X5 & X6)].
  - rewrite G1, create_version_bucket_eq, decide_False, G2 by done. cbn.
    split_and!; [done| | |].
    + split; [|done]. intros k Hk Ik. destruct (decide (k = key)) as [->|N].
      * right. destruct (proj1 (so_dom _ SO key) IS) as [b Hb].
        exists m, (arrived_meta now m), b, (mk_vbucket 0 ∅). cbn. rewrite !lookup_insert.
        split_and!; try done. apply map_empty_subseteq.
      * destruct (HR k Hk Ik) as [[Y1 Y2]|(p & p' & c & c' & Y1 & Y2 & Y3 & Y4 & Y5 & Y6)].
        -- left. split; cbn; by rewrite lookup_insert_ne.
        -- right. exists p, p', c, c'. cbn. rewrite !lookup_insert_ne by done. done.
    + split_and!; cbn.
      * done.
      * intros k N. split; cbn; by rewrite lookup_insert_ne.
      * congruence.
      * congruence.
    + exists (arrived_meta now m), (mk_vbucket 0 ∅). rewrite !lookup_insert. done.
  - rewrite X2. cbn. split_and!; [done|done|apply step_refl|]. exists n', b'.
    assert (n = m) as -> by congruence. done.
Qed.

Lemma idx_add_fresh : forall h key m u i, idx_add h key m = Some i -> u <> h -> idx_get u i = idx_get u m.
Proof.
  intros h key m u i H N. destruct h; [done|]. injection H as <-. unfold idx_get.
  by rewrite lookup_insert_ne by congruence.
Qed.

Lemma recv_ver : forall batch now key b k v dr, R dr -> sel key ->
  d_vers ds0 !! key = Some b -> vb_map b !! k = Some v -> is_Some (d_vers dr !! key) ->
  let (dr', ok) := receive batch now (IVer key v) dr in
  ok = true /\ R dr' /\ step_at key dr dr' /\
  exists b', d_vers dr' !! key = Some b' /\ vb_map b' !! k = Some v.
Proof.
  intros batch now key b k v dr [HR HU] Hs Hb Hk Hd.
  assert (moved_version sel ds0 v) as MV by (exists key, b, k; done).
  destruct (IDS v MV) as [NH NU]. assert (HUv := HU v MV).
  assert (is_Some (d_meta ds0 !! key)) as IS by (apply (so_dom _ SO); by eexists).
  destruct (HR key Hs IS) as [[_ G]|(n & n' & c & c' & X1 & X2 & X3 & X4 & X5 & X6)]; [destruct Hd; congruence|].
  assert (c = b) as -> by congruence.
  assert (k = vkey key (v_seq v)) as -> by (by eapply so_keys).
  unfold receive, repo_add_version_raft.
  assert (nonempty_ids v = true) as -> by (unfold nonempty_ids; destruct (v_hash v), (v_uid v); done).
  rewrite andb_false_r. cbn [snd fst]. unfold add_ver_with_sequence. rewrite X5, HUv.
  destruct (vb_map c' !! vkey key (v_seq v)) as [w|] eqn:E.
  - cbn. split_and!; [done|done|apply step_refl|]. exists c'. split; [done|].
    pose proof (lookup_weaken _ _ _ _ E X6) as W. congruence.
  - destruct (idx_add (v_hash v) (vkey key (v_seq v)) (d_uid dr)) as [ui|] eqn:UI;
      [|destruct (v_hash v); done].
    destruct (idx_add (v_hash v) (vkey key (v_seq v)) (d_hash dr)) as [hi|] eqn:HI;
      [|destruct (v_hash v); done].
    cbn. split_and!; [done| | |].
    + split.
      * intros k Hk' Ik. destruct (decide (k = key)) as [->|N].
        -- right. exists n, n', b. eexists. cbn. rewrite lookup_insert. split_and!; try done. cbn.
           by apply insert_subseteq_l.
        -- destruct (HR k Hk' Ik) as [[Y1 Y2]|(p & p' & q & q' & Y1 & Y2 & Y3 & Y4 & Y5 & Y6)].
           ++ left. split; cbn; [done|]. by rewrite lookup_insert_ne.
           ++ right. exists p, p', q, q'. cbn. rewrite !lookup_insert_ne by done. done.
      * intros w Hw. rewrite uid_exists_idx. cbn. rewrite (idx_add_fresh _ _ _ _ _ UI) by (by apply CROSS).
        apply uid_exists_idx. by apply HU.
    + split_and!; cbn.
      * done.
      * intros k N. split; cbn; [done|]. by rewrite lookup_insert_ne.
      * done.
      * intros b2 H2. eexists. rewrite lookup_insert. split; [done|]. cbn.
        assert (b2 = c') as -> by congruence. by apply insert_subseteq.
    + eexists. rewrite lookup_insert. split; [done|]. cbn. by rewrite lookup_insert.
Qed.

Lemma send_vers : forall batch now ev key b vs dr, R dr -> sel key -> d_vers ds0 !! key = Some b ->
  (forall k v, (k, v) ∈ vs -> vb_map b !! k = Some v) -> is_Some (d_vers dr !! key) ->
  let (dr', ok) := send_versions batch now ev key vs dr in
  R dr' /\ step_at key dr dr' /\ is_Some (d_vers dr' !! key) /\
  (ok = true -> exists b', d_vers dr' !! key = Some b' /\ forall k v, (k, v) ∈ vs -> vb_map b' !! k = Some v) /\
  ((forall k, ev k = Answered) -> ok = true).
Proof.
  intros batch now ev key b vs. induction vs as [|[k v] vs IH]; intros dr HR Hs Hb Hv Hd; cbn [send_versions].
  - split_and!; [done|apply step_refl|done| |done]. intros _. destruct Hd as [b' Hb'].
    exists b'. split; [done|]. intros k v H. by apply elem_of_nil in H.
  - assert (vb_map b !! k = Some v) as Hk by (apply Hv; left).
    assert (let (dr1, ok1) := send batch now (ev k) (IVer key v) dr in
      R dr1 /\ step_at key dr dr1 /\ is_Some (d_vers dr1 !! key) /\
      (ok1 = true -> exists b', d_vers dr1 !! key = Some b' /\ vb_map b' !! k = Some v) /\
      (ev k = Answered -> ok1 = true)) as S.
    { pose proof (recv_ver batch now key b k v dr HR Hs Hb Hk Hd) as RV.
      unfold send. destruct (receive batch now (IVer key v) dr) as [d1 o1]. destruct RV as (-> & R1 & S1 & b' & B1 & B2).
      destruct (ev k); cbn [fst].
      - split_and!; [done|done|by eexists| |done]. intros _. by exists b'.
      - split_and!; [done|apply step_refl|done|done|done].
      - split_and!; [done|done|by eexists|done|done]. }
    destruct (send batch now (ev k) (IVer key v) dr) as [dr1 ok1]. destruct S as (R1 & S1 & D1 & K1 & A1).
    specialize (IH dr1 R1 Hs Hb (fun k' v' H => Hv k' v' (elem_of_list_further _ _ _ H)) D1).
    destruct (send_versions batch now ev key vs dr1) as [dr2 ok2]. destruct IH as (R2 & S2 & D2 & K2 & A2).
    split_and!; [done|by eapply step_trans|done| |].
    + intros H. apply andb_true_iff in H as [-> ->]. destruct (K2 eq_refl) as (b2 & E2 & F2).
      destruct (K1 eq_refl) as (b1 & E1 & F1). exists b2. split; [done|].
      intros k' v' H. apply elem_of_cons in H as [X|H]; [|by apply F2]. injection X as -> ->.
      destruct S2 as (_ & _ & _ & G). destruct (G _ E1) as (b2' & E2' & Sub).
      assert (b2' = b2) as -> by congruence. by eapply lookup_weaken.
    + intros H. rewrite A1, A2 by eauto. done.
Qed.

(** ** One object *)

Definition unchanged_or_moved (ds dr : db) : Prop :=
  forall k, kept ds0 ds k \/ (sel k /\ gone ds k /\ complete ds0 dr k).

Lemma remove_meta_kept : forall key d, is_Some (d_meta d !! key) -> is_Some (d_vers d !! key) ->
  let d' := fst (commit d (remove_meta key d)) in
  gone d' key /\ (forall k, k <> key -> kept d d' k) /\ d_bkt d' = d_bkt d.
Proof.
  intros key d [m Hm] [b Hb]. unfold remove_meta, remove_version_bucket. rewrite Hm. cbn. rewrite Hb. cbn.
  split_and!; [|intros k N|done]; split; cbn; rewrite ?lookup_delete, ?lookup_delete_ne by done; done.
Qed.

Lemma move_object_ok : forall batch now ev ds dr ok key, R dr -> sel key -> is_Some (d_meta ds0 !! key) ->
  kept ds0 ds key -> unchanged_or_moved ds dr ->
  let '(ds', dr', ok') := move_object batch now ev (ds, dr, ok) key in
  R dr' /\ unchanged_or_moved ds' dr' /\ step_at key dr dr' /\ (forall k, k <> key -> kept ds ds' k) /\
  d_bkt ds' = d_bkt ds /\ (ok' = true -> ok = true /\ complete ds0 dr' key /\ (ev_del_meta ev key = true -> gone ds' key)) /\
  (calm ev -> ok' = ok).
Proof.
  intros batch now ev ds dr ok key HR Hs [m Hm] [K1 K2] U. unfold move_object. rewrite K1, Hm.
  assert (is_Some (d_vers ds0 !! key)) as [b Hb] by (apply (so_dom _ SO); by eexists).
  pose proof (recv_meta batch now key m dr HR Hs Hm) as RM.
  assert (let (dr1, ok1) := send batch now (ev_meta ev key) (IMeta key m) dr in
    R dr1 /\ step_at key dr dr1 /\ (ok1 = true -> exists m' b', d_meta dr1 !! key = Some m' /\ same_meta m m' /\ d_vers dr1 !! key = Some b') /\
    (ev_meta ev key = Answered -> ok1 = true)) as S.
  { unfold send. destruct (receive batch now (IMeta key m) dr) as [d1 o1]. destruct RM as (-> & R1 & S1 & X).
    destruct (ev_meta ev key); cbn [fst].
    - split_and!; done.
    - split_and!; [done|apply step_refl|done|done].
    - split_and!; done. }
  assert (forall dr', R dr' -> step_at key dr dr' -> unchanged_or_moved ds dr') as U'.
  { intros dr' R' S' k. destruct (U k) as [X|(X & Y & Z)]; [by left|right]. split_and!; [done|done|]. by eapply complete_step. }
  destruct (send batch now (ev_meta ev key) (IMeta key m) dr) as [dr1 ok1]. destruct S as (R1 & S1 & X1 & A1).
  destruct ok1; [|split_and!; try done; [by apply U'|intros (C & _); by specialize (A1 (C key))]].
  destruct (X1 eq_refl) as (m1 & b1 & M1 & SM & B1). clear X1.
  assert (versions_of key ds = version_list (vb_map b)) as -> by (unfold versions_of; by rewrite K2, Hb).
  pose proof (send_vers batch now (ev_ver ev key) key b (version_list (vb_map b)) dr1 R1 Hs Hb
    (fun k v => proj1 (version_list_in _ k v)) ltac:(by eexists)) as SV.
  destruct (send_versions _ _ _ _ _ _) as [dr2 ok2]. destruct SV as (R2 & S2 & D2 & K3 & A2).
  assert (step_at key dr dr2) as S3 by (by eapply step_trans).
  destruct ok2; [|split_and!; try done; [by apply U'|intros (_ & C & _); by specialize (A2 (C key))]].
  assert (complete ds0 dr2 key) as CO.
  { destruct (K3 eq_refl) as (b2 & B2 & F2). destruct S2 as (_ & _ & S2 & _). specialize (S2 _ M1).
    exists m, m1, b, b2. split_and!; try done.
    destruct R2 as [R2 _]. destruct (R2 key Hs ltac:(by eexists)) as [[Y _]|(p & p' & c & c' & Y1 & Y2 & Y3 & Y4 & Y5 & Y6)]; [congruence|].
    assert (c = b) as -> by congruence. assert (c' = b2) as -> by congruence.
    apply (anti_symm (⊆)); [done|]. apply map_subseteq_spec. intros k v H. apply F2. by apply version_list_in. }
  destruct (ev_del_meta ev key) eqn:ED.
  - destruct (remove_meta_kept key ds) as (G1 & G2 & G3); [rewrite K1; by eexists|rewrite K2; by eexists|].
    split_and!; try done.
    intros k. destruct (decide (k = key)) as [->|N]; [by right|].
    destruct (U' dr2 R2 S3 k) as [[X1 X2]|(X & [Y1 Y2] & Z)]; destruct (G2 k N) as [Z1 Z2].
    + left. split; congruence.
    + right. split_and!; [done| |done]. split; congruence.
  - split_and!; try done. by apply U'.
Qed.

(** ** All objects *)

Lemma move_objects_ok : forall batch now ev ks ds dr ok, NoDup ks -> R dr ->
  (forall k, k ∈ ks -> sel k /\ is_Some (d_meta ds0 !! k) /\ kept ds0 ds k) -> unchanged_or_moved ds dr ->
  let '(ds', dr', ok') := fold_left (move_object batch now ev) ks (ds, dr, ok) in
  R dr' /\ unchanged_or_moved ds' dr' /\ d_bkt ds' = d_bkt ds /\ d_bkt dr' = d_bkt dr /\
  (forall k, k ∉ ks -> kept dr dr' k /\ kept ds ds' k) /\
  (forall k, sel k -> complete ds0 dr k -> complete ds0 dr' k) /\
  (ok' = true -> ok = true /\ forall k, k ∈ ks -> complete ds0 dr' k /\ (ev_del_meta ev k = true -> gone ds' k)) /\
  (calm ev -> ok' = ok).
Proof.
  intros batch now ev ks. induction ks as [|key ks IH]; intros ds dr ok ND HR Hks U; cbn [fold_left].
  - split_and!; try done. intros ->. split; [done|]. intros k H. by apply elem_of_nil in H.
  - apply NoDup_cons in ND as [NI ND]. destruct (Hks key) as (Hs & Hm & HK); [left|].
    pose proof (move_object_ok batch now ev ds dr ok key HR Hs Hm HK U) as MO.
    destruct (move_object batch now ev (ds, dr, ok) key) as [[ds1 dr1] ok1].
    destruct MO as (R1 & U1 & S1 & F1 & B1 & O1 & C1).
    specialize (IH ds1 dr1 ok1 ND R1).
    destruct (fold_left (move_object batch now ev) ks (ds1, dr1, ok1)) as [[ds2 dr2] ok2].
    destruct IH as (R2 & U2 & B2 & B2' & F2 & M2 & O2 & C2).
    { intros k H. destruct (Hks k) as (X1 & X2 & [X3 X4]); [by right|]. split_and!; [done|done|].
      assert (k <> key) as N by (intros ->; done). destruct (F1 k N) as [Y1 Y2]. split; congruence. }
    { done. }
    destruct S1 as (SB & SF & SM & SV).
    split_and!; try done; try congruence.
    + intros k N. apply not_elem_of_cons in N as [N1 N2]. destruct (F2 k N2) as [[X1 X2] [X3 X4]].
      destruct (F1 k N1) as [Y1 Y2]. destruct (SF k N1) as [Z1 Z2]. split; split; congruence.
    + intros k Hk Ck. apply M2; [done|]. eapply (complete_step key); [done|done|done|]. split_and!; done.
    + intros E. destruct (O2 E) as [E1 G2]. destruct (O1 E1) as (-> & Ck & Dk). split; [done|].
      intros k H. apply elem_of_cons in H as [->|H]; [|by apply G2]. split; [by apply M2|].
      intros D. destruct (Dk D) as [Y1 Y2]. destruct (F2 key NI) as [_ [X1 X2]]. split; congruence.
    + intros H. rewrite C2, C1 by done. done.
Qed.

End move.

(** ** Buckets *)

Lemma same_bkt_arrived : forall now b, same_bkt b (arrived_bkt now b).
Proof. intros. unfold same_bkt. cbn. split_and!; done. Qed.

Section bkts.
Context (sel : str -> Prop) (B0 : gmap str bucket).
Hypothesis NAMES : forall name b, B0 !! name = Some b -> b_name b = name.
Hypothesis NE : B0 !! ([] : str) = None.

Definition RB (dr : db) : Prop := forall name b, sel name -> B0 !! name = Some b ->
  d_bkt dr !! name = None \/ exists b', d_bkt dr !! name = Some b' /\ same_bkt b b'.
Definition arrived (dr : db) (name : str) : Prop :=
  exists b b', B0 !! name = Some b /\ d_bkt dr !! name = Some b' /\ same_bkt b b'.
Definition bkt_or_moved (ds dr : db) : Prop :=
  forall k, d_bkt ds !! k = B0 !! k \/ (sel k /\ d_bkt ds !! k = None /\ arrived dr k).
Definition same_objs (d d' : db) : Prop := d_meta d' = d_meta d /\ d_vers d' = d_vers d /\ d_uid d' = d_uid d.

Lemma recv_bkt : forall now name b dr, RB dr -> sel name -> B0 !! name = Some b ->
  let (dr', ok) := receive false now (IBkt b) dr in
  ok = true /\ RB dr' /\ arrived dr' name /\ same_objs dr dr' /\
  (forall k, k <> name -> d_bkt dr' !! k = d_bkt dr !! k) /\ (forall k, arrived dr k -> arrived dr' k).
Proof.
  intros now name b dr HR Hs Hb. unfold receive, bkt_create.
  assert (b_name b = name) as EN by (by apply NAMES).
  replace (b_name (arrived_bkt now b)) with name by done.
  assert (name <> []) as N0. { intros ->. congruence. }
  destruct (HR name b Hs Hb) as [G|(b' & G & SB)].
  - destruct name as [|c name']; [done|]. rewrite G. cbn.
    assert (arrived (with_bkt (<[c :: name' := arrived_bkt now b]> (d_bkt dr)) dr) (c :: name')) as A.
    { exists b, (arrived_bkt now b). cbn. rewrite lookup_insert. split_and!; [done|done|apply same_bkt_arrived]. }
    split_and!; try done.
    + intros k b2 Hk H2. destruct (decide (k = c :: name')) as [->|N].
      * right. destruct A as (x & y & X1 & X2 & X3). exists y. assert (x = b2) as -> by congruence. done.
      * cbn. rewrite lookup_insert_ne by done. by apply HR.
    + intros k N. cbn. by rewrite lookup_insert_ne.
    + intros k (x & y & X1 & X2 & X3). destruct (decide (k = c :: name')) as [->|N]; [done|].
      exists x, y. cbn. rewrite lookup_insert_ne by done. done.
  - destruct name as [|c name']; [done|]. rewrite G. cbn. split_and!; try done. exists b, b'. done.
Qed.

Lemma move_bucket_ok : forall now ev cache ds dr ok name, RB dr -> sel name -> is_Some (B0 !! name) ->
  d_bkt ds !! name = B0 !! name -> (forall b, cache name = Some b -> B0 !! name = Some b) -> bkt_or_moved ds dr ->
  let '(ds', dr', ok') := move_bucket now ev cache (ds, dr, ok) name in
  RB dr' /\ bkt_or_moved ds' dr' /\ same_objs ds ds' /\ same_objs dr dr' /\
  (forall k, k <> name -> d_bkt ds' !! k = d_bkt ds !! k /\ d_bkt dr' !! k = d_bkt dr !! k) /\
  (forall k, arrived dr k -> arrived dr' k) /\
  (ok' = true -> ok = true /\ arrived dr' name /\ (ev_del_bkt ev name = true -> d_bkt ds' !! name = None)) /\
  (calm ev -> ok' = ok).
Proof.
  intros now ev cache ds dr ok name HR Hs [b Hb] HK HC U. unfold move_bucket.
  assert (match cache name with Some b => Some b | None => d_bkt ds !! name end = Some b) as ->.
  { destruct (cache name) eqn:E; [rewrite <-Hb; symmetry; by apply HC|congruence]. }
  pose proof (recv_bkt now name b dr HR Hs Hb) as RV.
  assert (let (dr1, ok1) := send false now (ev_bkt ev name) (IBkt b) dr in
    RB dr1 /\ same_objs dr dr1 /\ (forall k, k <> name -> d_bkt dr1 !! k = d_bkt dr !! k) /\
    (forall k, arrived dr k -> arrived dr1 k) /\ (ok1 = true -> arrived dr1 name) /\
    (ev_bkt ev name = Answered -> ok1 = true)) as S.
  { unfold send. destruct (receive false now (IBkt b) dr) as [d1 o1]. destruct RV as (-> & R1 & A1 & S1 & F1 & M1).
    destruct (ev_bkt ev name); cbn [fst]; split_and!; done. }
  destruct (send false now (ev_bkt ev name) (IBkt b) dr) as [dr1 ok1]. destruct S as (R1 & S1 & F1 & M1 & A1 & L1).
  assert (bkt_or_moved ds dr1) as U1.
  { intros k. destruct (U k) as [X|(X & Y & Z)]; [by left|right]. eauto. }
  destruct ok1.
  - destruct (ev_del_bkt ev name) eqn:ED.
    + cbn. split_and!; try done.
      * intros k. destruct (decide (k = name)) as [->|N].
        -- right. cbn. rewrite lookup_delete. eauto.
        -- cbn. rewrite lookup_delete_ne by done. apply U1.
      * intros k N. split; [cbn; by rewrite lookup_delete_ne|by apply F1].
      * intros ->. split_and!; [done|by apply A1|]. intros _. cbn. by rewrite lookup_delete.
    + split_and!; try done; [intros k N; split; [done|by apply F1]|]. intros ->. split_and!; [done|by apply A1|done].
  - split_and!; try done; [intros k N; split; [done|by apply F1]|].
    intros (_ & _ & C & _). by specialize (L1 (C name)).
Qed.

Lemma move_buckets_ok : forall now ev cache ks ds dr ok, NoDup ks -> RB dr ->
  (forall k, k ∈ ks -> sel k /\ is_Some (B0 !! k) /\ d_bkt ds !! k = B0 !! k) ->
  (forall k b, cache k = Some b -> B0 !! k = Some b) -> bkt_or_moved ds dr ->
  let '(ds', dr', ok') := fold_left (move_bucket now ev cache) ks (ds, dr, ok) in
  RB dr' /\ bkt_or_moved ds' dr' /\ same_objs ds ds' /\ same_objs dr dr' /\
  (forall k, k ∉ ks -> d_bkt ds' !! k = d_bkt ds !! k /\ d_bkt dr' !! k = d_bkt dr !! k) /\
  (forall k, arrived dr k -> arrived dr' k) /\
  (ok' = true -> ok = true /\ forall k, k ∈ ks -> arrived dr' k /\ (ev_del_bkt ev k = true -> d_bkt ds' !! k = None)) /\
  (calm ev -> ok' = ok).
Proof.
  intros now ev cache ks. induction ks as [|key ks IH]; intros ds dr ok ND HR Hks HC U; cbn [fold_left].
  - split_and!; try done. intros ->. split; [done|]. intros k H. by apply elem_of_nil in H.
  - apply NoDup_cons in ND as [NI ND]. destruct (Hks key) as (Hs & Hm & HK); [left|].
    pose proof (move_bucket_ok now ev cache ds dr ok key HR Hs Hm HK (HC key) U) as MO.
    destruct (move_bucket now ev cache (ds, dr, ok) key) as [[ds1 dr1] ok1].
    destruct MO as (R1 & U1 & S1 & S1' & F1 & M1 & O1 & C1).
    specialize (IH ds1 dr1 ok1 ND R1).
    destruct (fold_left (move_bucket now ev cache) ks (ds1, dr1, ok1)) as [[ds2 dr2] ok2].
    destruct IH as (R2 & U2 & S2 & S2' & F2 & M2 & O2 & C2).
    { intros k H. destruct (Hks k) as (X1 & X2 & X3); [by right|]. split_and!; [done|done|].
      assert (k <> key) as N by (intros ->; done). destruct (F1 k N) as [Y1 Y2]. congruence. }
    { done. } { done. }
    destruct S1 as (E1 & E2 & E3), S2 as (E4 & E5 & E6), S1' as (G1 & G2 & G3), S2' as (G4 & G5 & G6).
    split_and!; try done.
    + split_and!; congruence.
    + split_and!; congruence.
    + intros k N. apply not_elem_of_cons in N as [N1 N2]. destruct (F2 k N2), (F1 k N1). split; congruence.
    + eauto.
    + intros E. destruct (O2 E) as [X1 X2]. destruct (O1 X1) as (-> & Ak & Dk). split; [done|].
      intros k H. apply elem_of_cons in H as [->|H]; [|by apply X2]. split; [by apply M2|].
      intros D. rewrite (proj1 (F2 key NI)). by apply Dk.
    + intros H. rewrite C2, C1 by done. done.
Qed.

End bkts.

(** ** The whole migration *)

Lemma filter_keys : forall {A} (f : str -> bool) (m : gmap str A) k,
  k ∈ filter (fun k => f k = true) (keys m) <-> f k = true /\ is_Some (m !! k).
Proof. intros. rewrite elem_of_list_filter. by rewrite keys_in. Qed.

Lemma keys_nodup : forall {A} (m : gmap str A), NoDup (keys m).
Proof.
  intros A m. unfold keys. rewrite ksort_perm. apply NoDup_fst_map_to_list.
Qed.

Definition deleted (ev : events) : Prop := (forall k, ev_del_meta ev k = true) /\ (forall k, ev_del_bkt ev k = true).

Lemma migrate_edges : forall crc32 batch now ev cache edges ds dr,
  let sel k := moves crc32 edges k = true in
  store_ok ds -> cache_ok cache ds -> receivable sel ds dr ->
  let '(ds', dr', ok) := migrate_buckets crc32 now ev cache edges (migrate_metadata crc32 batch now ev edges (ds, dr, true)) in
  moved_right sel ds dr ds' dr' ok /\ receivable sel ds' dr' /\
  (ok = true -> deleted ev -> forall k, sel k -> gone ds' k /\ d_bkt ds' !! k = None) /\
  (calm ev -> ok = true).
Proof.
  intros crc32 batch now ev cache edges ds dr sel SO CO RC. unfold migrate_metadata. cbn [fst].
  assert (forall v, moved_version sel ds v -> v_hash v <> [] /\ v_uid v <> []) as IDS.
  { intros v Hv. destruct (rc_ids _ _ _ RC v Hv) as (X & Y & _). done. }
  pose proof (move_objects_ok sel ds SO IDS (rc_cross _ _ _ RC) batch now ev
    (filter (fun k => moves crc32 edges k = true) (keys (d_meta ds))) ds dr true
    (NoDup_filter _ _ (keys_nodup _))) as MO.
  destruct (fold_left _ _ _) as [[ds1 dr1] ok1].
  destruct MO as (R1 & U1 & B1 & B1' & F1 & _ & O1 & C1).
  { split; [apply RC|]. intros v Hv. by apply (rc_ids _ _ _ RC). }
  { intros k H. apply filter_keys in H as [X Y]. done. }
  { intros k. left. done. }
  unfold migrate_buckets. cbn [fst].
  pose proof (move_buckets_ok sel (d_bkt ds) (so_bkts _ SO) (so_bkt_name _ SO) now ev cache
    (filter (fun k => moves crc32 edges k = true) (keys (d_bkt ds1))) ds1 dr1 ok1
    (NoDup_filter _ _ (keys_nodup _))) as MB.
  destruct (fold_left _ _ _) as [[ds2 dr2] ok2].
  destruct MB as (R2 & U2 & (X1 & X2 & X3) & (Y1 & Y2 & Y3) & F2 & _ & O2 & C2).
  { intros k b Hk Hb. rewrite B1'. by apply (rc_bkts _ _ _ RC). }
  { intros k H. apply filter_keys in H as [X Y]. rewrite B1 in *. done. }
  { done. }
  { intros k. left. by rewrite B1. }
  assert (forall k d, complete d dr1 k <-> complete d dr2 k) as CC.
  { intros k d. unfold complete. by rewrite Y1, Y2. }
  assert (forall k, kept ds ds1 k <-> kept ds ds2 k) as KK. { intros k. unfold kept. by rewrite X1, X2. }
  assert (forall k, gone ds1 k <-> gone ds2 k) as GG. { intros k. unfold gone. by rewrite X1, X2. }
  split_and!.
  - constructor.
    + intros k N. destruct (F1 k) as [[P1 P2] [Q1 Q2]]; [rewrite filter_keys; tauto|].
      split; split; congruence.
    + intros k N. destruct (F2 k) as [P Q]; [rewrite filter_keys; tauto|]. split; congruence.
    + intros k N. destruct (F1 k) as [[P1 P2] _]; [rewrite filter_keys; intros [_ [? ?]]; congruence|]. split; congruence.
    + intros k N. destruct (F2 k) as [P Q]; [rewrite filter_keys, B1; intros [_ [? ?]]; congruence|]. congruence.
    + intros k Hk. destruct (U1 k) as [P|(_ & P & Q)]; [left; by apply KK|right]. split; [by apply GG|by apply CC].
    + intros k Hk. destruct (U2 k) as [P|(_ & P & Q)]; [by left|right]. done.
    + intros E k Hk Ik. destruct (O2 E) as [-> _]. apply CC. apply O1; [done|]. by apply filter_keys.
    + intros E k b Hk Hb. destruct (O2 E) as [_ P]. destruct (P k) as [(x & y & Q1 & Q2 & Q3) _].
      * apply filter_keys. rewrite B1. split; [done|by eexists].
      * exists y. assert (x = b) as -> by congruence. done.
  - assert (forall v, moved_version sel ds2 v -> moved_version sel ds v) as MV.
    { intros v (k & b & k' & P1 & P2 & P3). destruct (U1 k) as [[Q1 Q2]|(_ & [_ Q] & _)]; [|congruence].
      exists k, b, k'. split_and!; [done|congruence|done]. }
    constructor.
    + intros k Hk Ik. destruct R1 as [R1 _]. rewrite X1 in Ik.
      destruct (U1 k) as [[Q1 Q2]|(_ & [Q _] & _)]; [|destruct Ik; congruence].
      rewrite Q1 in Ik. specialize (R1 k Hk Ik). unfold part_copied, gone in *. rewrite Y1, Y2, X1, X2, Q1, Q2. done.
    + intros v Hv. apply MV in Hv. destruct (IDS v Hv). split_and!; [done|done|].
      unfold uid_exists. rewrite Y3. by apply R1.
    + intros v w Hv Hw. apply (rc_cross _ _ _ RC); by apply MV.
    + intros k b Hk Hb. destruct (U2 k) as [P|(_ & P & _)]; [|congruence]. apply (R2 k b Hk). congruence.
  - intros E [D1 D2] k Hk. destruct (O2 E) as [-> P]. destruct (O1 eq_refl) as [_ Q]. split.
    + destruct (d_meta ds !! k) eqn:E1.
      * apply GG. apply Q; [|done]. apply filter_keys. split; [done|by eexists].
      * destruct (F1 k) as [_ [Q1 Q2]]; [rewrite filter_keys; intros [_ [? ?]]; congruence|]. apply GG. split; [congruence|].
        rewrite Q2. destruct (d_vers ds !! k) eqn:E2; [|done]. destruct (proj2 (so_dom _ SO k)); [by eexists|congruence].
    + destruct (d_bkt ds1 !! k) eqn:E1.
      * apply P; [|done]. apply filter_keys. split; [done|by eexists].
      * rewrite (proj1 (F2 k ltac:(rewrite filter_keys; intros [_ [? ?]]; congruence))). done.
  - intros C. rewrite C2, C1 by done. done.
Qed.

Lemma prepare_to_texts : forall sort prov sid slots, is_sorter sort -> prepare_to sort prov sid slots = true -> good_texts slots.
Proof.
  intros sort prov sid slots HS H. unfold prepare_to, wrap_slots_to_edges in H.
  destruct (wrap_slots_original slots sid) as [es|] eqn:E; [|discriminate].
  pose proof (sort_validate_iff sort es HS) as HV. unfold sort_and_validate in *. cbn [snd] in HV.
  destruct (validate_loop None (sort es)); [|discriminate].
  destruct (proj1 HV eq_refl) as [V1 V2].
  exists sid, es. split; [exact E|]. split; [exact V1|]. apply all_disj_iff. exact V2.
Qed.

Lemma moves_named : forall crc32 sort prov sid slots k, is_sorter sort -> prepare_to sort prov sid slots = true ->
  moves crc32 (edges_of sort slots) k = true <-> named slots (calc_bytes_slot crc32 k).
Proof.
  intros crc32 sort prov sid slots k HS HP.
  destruct (edges_of_good sort slots HS) as (H1 & H2 & H3); [eapply prepare_to_texts; eassumption|].
  unfold moves. rewrite is_slot_in_edges_iff by done. apply H3.
Qed.

Lemma moved_right_ext : forall s1 s2 ds dr ds' dr' ok, (forall k, s1 k <-> s2 k) ->
  moved_right s1 ds dr ds' dr' ok -> moved_right s2 ds dr ds' dr' ok.
Proof.
  intros s1 s2 ds dr ds' dr' ok E [M1 M2 A1 A2 M3 M4 M5 M6]. constructor.
  - intros k X. apply M1. by rewrite E.
  - intros k X. apply M2. by rewrite E.
  - done.
  - done.
  - intros k X. apply M3. by rewrite E.
  - intros k X. apply M4. by rewrite E.
  - intros O k X. apply M5; [done|]. by rewrite E.
  - intros O k b X. apply M6; [done|]. by rewrite E.
Qed.

Lemma receivable_ext : forall s1 s2 ds dr, (forall k, s1 k <-> s2 k) -> receivable s1 ds dr -> receivable s2 ds dr.
Proof.
  intros s1 s2 ds dr E []. assert (forall v, moved_version s2 ds v -> moved_version s1 ds v) as M.
  { intros v (k & b & k' & P1 & P2 & P3). exists k, b, k'. rewrite E. done. }
  constructor; intros *; rewrite <-?E; eauto.
Qed.

Lemma move_all_right : forall crc32 sort batch now ev cache prov sid slots ds dr, is_sorter sort ->
  prepare_to sort prov sid slots = true ->
  let sel k := named slots (calc_bytes_slot crc32 k) in
  store_ok ds -> cache_ok cache ds -> receivable sel ds dr ->
  let '(ds', dr', ok) := move_all crc32 sort batch now ev cache slots ds dr in
  moved_right sel ds dr ds' dr' ok /\ receivable sel ds' dr' /\
  (ok = true -> deleted ev -> forall k, sel k -> gone ds' k /\ d_bkt ds' !! k = None) /\
  (calm ev -> ok = true).
Proof.
  intros crc32 sort batch now ev cache prov sid slots ds dr HS HP sel SO CO RC. unfold move_all.
  assert (forall k, moves crc32 (edges_of sort slots) k = true <-> sel k) as E by (intros; by eapply moves_named).
  pose proof (migrate_edges crc32 batch now ev cache (edges_of sort slots) ds dr SO CO) as M.
  destruct (migrate_buckets _ _ _ _ _ _) as [[ds' dr'] ok].
  destruct M as (M1 & M2 & M3 & M4). { eapply receivable_ext; [|exact RC]. intros; by rewrite E. }
  split_and!; [eapply moved_right_ext; [exact E|exact M1]|eapply receivable_ext; [exact E|exact M2]| |done].
  intros O D k Hk. apply M3; [done|done|]. by apply E.
Qed.

(** ** Repeating it *)

Lemma store_ok_after : forall sel ds dr ds' dr' ok, store_ok ds -> moved_right sel ds dr ds' dr' ok ->
  (forall k, sel k \/ ~ sel k) -> store_ok ds'.
Proof.
  intros sel ds dr ds' dr' ok [S1 S2 S3 S4 S5] M D.
  assert (forall k, kept ds ds' k \/ gone ds' k) as K.
  { intros k. destruct (D k) as [H|H]; [destruct (mr_objs _ _ _ _ _ _ M k H) as [|[]]; eauto|].
    left. by apply (mr_others _ _ _ _ _ _ M). }
  assert (forall k, d_bkt ds' !! k = d_bkt ds !! k \/ d_bkt ds' !! k = None) as KB.
  { intros k. destruct (D k) as [H|H]; [destruct (mr_bkts _ _ _ _ _ _ M k H) as [|[]]; eauto|].
    left. by apply (mr_other_bkts _ _ _ _ _ _ M). }
  constructor.
  - intros k. destruct (K k) as [[-> ->]|[-> ->]]; [done|]. split; intros [? ?]; done.
  - intros k b k' v H. destruct (K k) as [[_ E]|[_ E]]; [|congruence]. apply S2. congruence.
  - intros k b H. destruct (KB k) as [E|E]; [|congruence]. apply S3. congruence.
  - destruct (K []) as [[E _]|[E _]]; congruence.
  - destruct (KB []) as [E|E]; congruence.
Qed.

Lemma move_all_again : forall crc32 sort batch now ev cache prov sid slots ds dr, is_sorter sort ->
  prepare_to sort prov sid slots = true ->
  let sel k := named slots (calc_bytes_slot crc32 k) in
  store_ok ds -> cache_ok cache ds -> receivable sel ds dr ->
  let '(ds', dr', _) := move_all crc32 sort batch now ev cache slots ds dr in
  forall batch2 now2 ev2 cache2, cache_ok cache2 ds' -> calm ev2 ->
  let '(ds2, dr2, ok2) := move_all crc32 sort batch2 now2 ev2 cache2 slots ds' dr' in
  ok2 = true /\
  (forall key, sel key -> is_Some (d_meta ds !! key) -> complete ds dr2 key /\ gone ds2 key) /\
  (forall name b, sel name -> d_bkt ds !! name = Some b ->
     d_bkt ds2 !! name = None /\ exists b', d_bkt dr2 !! name = Some b' /\ same_bkt b b') /\
  (forall key, ~ sel key -> kept ds ds2 key /\ kept dr dr2 key).
Proof.
  intros crc32 sort batch now ev cache prov sid slots ds dr HS HP sel SO CO RC.
  pose proof (move_all_right crc32 sort batch now ev cache prov sid slots ds dr HS HP SO CO RC) as M.
  destruct (move_all _ _ _ _ _ _ _ _ _) as [[ds' dr'] ok]. destruct M as (M1 & M2 & _).
  intros batch2 now2 ev2 cache2 CO2 CA.
  assert (forall k, sel k \/ ~ sel k) as D.
  { intros k. unfold sel. rewrite <-(moves_named crc32 sort prov sid slots k HS HP).
    destruct (moves crc32 (edges_of sort slots) k); [by left|by right]. }
  pose proof (store_ok_after _ _ _ _ _ _ SO M1 D) as SO2.
  pose proof (move_all_right crc32 sort batch2 now2 ev2 cache2 prov sid slots ds' dr' HS HP SO2 CO2 M2) as N.
  destruct (move_all _ _ _ _ _ _ _ _ _) as [[ds2 dr2] ok2]. destruct N as (N1 & _ & N3 & N4).
  specialize (N4 CA). destruct CA as (_ & _ & _ & DM & DB). split_and!.
  - done.
  - intros k Hk Ik. split; [|by apply N3].
    destruct (mr_objs _ _ _ _ _ _ M1 k Hk) as [[E1 E2]|[[E1 E2] C]].
    + pose proof (mr_success _ _ _ _ _ _ N1 N4 k Hk) as C. unfold complete in *. rewrite <-E1, <-E2. apply C. by rewrite E1.
    + destruct (mr_absent _ _ _ _ _ _ N1 k E1) as [F1 F2]. unfold complete in *. rewrite F1, F2. done.
  - intros k b Hk Hb. split; [by apply N3|].
    destruct (mr_bkts _ _ _ _ _ _ M1 k Hk) as [E|(E & x & y & X1 & X2 & X3)].
    + apply (mr_success_bkt _ _ _ _ _ _ N1 N4 k b Hk). congruence.
    + rewrite (mr_absent_bkt _ _ _ _ _ _ N1 k E). exists y. assert (x = b) as -> by congruence. done.
  - intros k Hk. destruct (mr_others _ _ _ _ _ _ M1 k Hk) as [[P1 P2] [P3 P4]].
    destruct (mr_others _ _ _ _ _ _ N1 k Hk) as [[Q1 Q2] [Q3 Q4]]. split; split; congruence.
Qed.

(** ** The stores of histories *)

Definition names_ok (d : db) : Prop :=
  (forall name b, d_bkt d !! name = Some b -> b_name b = name) /\ d_bkt d !! ([] : str) = None /\
  d_meta d !! ([] : str) = None.

Lemma bkt_effect : forall d c d', effect d c d' ->
  ~ ((exists b, c = CreateBucket b \/ c = UpdateBucket b) \/ (exists n, c = DeleteBucket n)) -> d_bkt d' = d_bkt d.
Proof. intros d c d' E N. destruct E; done. Qed.

Lemma meta_effect : forall d c d', effect d c d' -> d_meta d !! ([] : str) = None ->
  (forall m, c <> AddMetadata [] m) -> d_meta d' !! ([] : str) = None.
Proof.
  intros d c d' E H N. destruct E as [c|i m o Hm|i m Hn|i m Hm| | | | | |]; cbn; try done.
  - rewrite lookup_insert_ne; [done|congruence].
  - rewrite lookup_insert_ne; [done|]. intros ->. by apply (N m).
  - rewrite lookup_delete_ne; [done|congruence].
Qed.

Lemma names_cmd : forall batch c d, names_ok d -> names_ok (fst (dispatch (command batch c) d)).
Proof.
  intros batch c d H0. pose proof H0 as (H1 & H2 & H3). pose proof (dispatch_effect batch c d) as E.
  assert ((exists b, c = CreateBucket b \/ c = UpdateBucket b) \/ (exists n, c = DeleteBucket n) \/
    ~ ((exists b, c = CreateBucket b \/ c = UpdateBucket b) \/ (exists n, c = DeleteBucket n))) as D.
  { destruct c; try (right; right; intros [(b0 & [X|X])|(n0 & X)]; discriminate).
    - left. eauto.
    - right. left. eauto.
    - left. eauto. }
  destruct D as [(b & [->| ->])|[(n & ->)|N]].
  - cbn. assert (b_name b = [] \/ exists x y, b_name b = x :: y) as Eb by (destruct (b_name b); eauto).
    unfold bkt_create. destruct (d_bkt d !! b_name b) eqn:El.
    { destruct Eb as [->|(x & y & ->)]; done. }
    assert (b_name b <> [] -> names_ok (with_bkt (<[b_name b := b]> (d_bkt d)) d)) as G.
    { intros NE. split_and!; cbn; [|by rewrite lookup_insert_ne|done].
      intros name b' H. destruct (decide (name = b_name b)) as [->|Nn]; [|rewrite lookup_insert_ne in H by done; by apply H1].
      rewrite lookup_insert in H. injection H as <-. done. }
    destruct Eb as [->|(x & y & Eb)]; [done|]. revert G. rewrite Eb. intros G. by apply G.
  - cbn. assert (b_name b = [] \/ exists x y, b_name b = x :: y) as Eb by (destruct (b_name b); eauto).
    unfold bkt_update. destruct (d_bkt d !! b_name b) as [o|] eqn:El;
      [|destruct Eb as [->|(x & y & ->)]; done].
    destruct (b_utime b <=? b_utime o)%Z; [destruct Eb as [->|(x & y & ->)]; done|].
    assert (b_name b <> [] -> names_ok (with_bkt (<[b_name b := keep_ctime o b]> (d_bkt d)) d)) as G.
    { intros NE. split_and!; cbn; [|by rewrite lookup_insert_ne|done].
      intros name b' H. destruct (decide (name = b_name b)) as [->|Nn]; [|rewrite lookup_insert_ne in H by done; by apply H1].
      rewrite lookup_insert in H. injection H as <-. done. }
    destruct Eb as [->|(x & y & Eb)]; [done|]. revert G. rewrite Eb. intros G. by apply G.
  - cbn. split_and!; cbn; [| |done].
    + intros name b' H. apply lookup_delete_Some in H as [_ H]. by apply H1.
    + by rewrite lookup_delete_None; right.
  - unfold names_ok. rewrite (bkt_effect _ _ _ E N). split_and!; [done|done|].
    destruct c as [i m| | | | | | | | | |]; try (by eapply meta_effect).
    destruct i as [|x y]; [|eapply meta_effect; [exact E|done|congruence]].
    cbn. unfold add_meta. rewrite H3. cbn. done.
Qed.

Lemma names_history : forall B ops, Forall (hop_ok B) ops -> names_ok (hrun db_empty ops).
Proof.
  intros B ops O. rewrite Forall_forall in O. apply hrun_ind.
  - split_and!; [intros name b X; done|done|done].
  - intros d o Hd Hin. apply elem_of_list_In, O in Hin. destruct o as [r|h|h i l now]; cbn.
    + destruct Hin as (batch & c & -> & _). by apply names_cmd.
    + unfold find_by_hash, names_ok. destruct (find_loop_keeps h (ksort (elements (idx_get h (d_hash d)))) d)
        as (_ & -> & _ & ->). done.
    + apply locate_ind; [|done]. intros d0 id n v d' (H1 & H2 & H3) E. unfold names_ok.
      rewrite (bkt_effect _ _ _ E); [|intros [(? & [?|?])|(? & ?)]; discriminate].
      split_and!; [done|done|]. by eapply meta_effect.
Qed.

Lemma store_ok_history : forall B ops, history B ops -> store_ok (hrun db_empty ops).
Proof.
  intros B ops H. pose proof (inv_history B ops H) as I. destruct H as [O _].
  destruct (names_history B ops O) as (N1 & N2 & N3). constructor; try done.
  - apply (inv_dom_history B ops O).
  - intros key b k v Hb Hk. by apply (I key b Hb).
Qed.

(** * Any receiver *)

Definition grows (d d' : db) : Prop :=
  (forall k, is_Some (d_meta d !! k) -> is_Some (d_meta d' !! k)) /\
  (forall k, is_Some (d_bkt d !! k) -> is_Some (d_bkt d' !! k)) /\
  (forall k v, held k v d -> held k v d').

Lemma grows_refl : forall d, grows d d.
Proof. done. Qed.

Lemma grows_trans : forall a b c, grows a b -> grows b c -> grows a c.
Proof. intros a b c (A1 & A2 & A3) (B1 & B2 & B3). split_and!; eauto. Qed.

Lemma uid_exists_true : forall d u, uid_exists d u = true <-> idx_get u (d_uid d) <> ∅.
Proof. intros. unfold uid_exists. case_bool_decide; simpl; split; congruence. Qed.

Lemma idx_add_grows : forall h key m u i, idx_add h key m = Some i -> idx_get u m <> ∅ -> idx_get u i <> ∅.
Proof.
  intros h key m u i H N. destruct h as [|c h]; [done|]. injection H as <-. unfold idx_get.
  destruct (decide (u = c :: h)) as [->|X].
  - rewrite lookup_insert. cbn. set_solver.
  - by rewrite lookup_insert_ne by congruence.
Qed.

Local Ltac gr := split; [apply grows_refl|done].

Definition item_held (i : item) (d : db) : Prop :=
  match i with
  | IMeta name _ => is_Some (d_meta d !! name)
  | IVer name v => held name v d
  | IBkt b => is_Some (d_bkt d !! b_name b)
  end.

Lemma bkt_create_eq : forall b d, bkt_create b d =
  if decide (b_name b = []) then inr EEmpty else
  match d_bkt d !! b_name b with
  | Some _ => inr EExists
  | None => inl (with_bkt (<[ b_name b := b ]> (d_bkt d)) d)
  end.
Proof. intros [? ? ? ? ? ? ? ? ? n ?] d. unfold bkt_create. cbn. destruct n; reflexivity. Qed.

Lemma receive_held : forall batch now i d d' ok, receive batch now i d = (d', ok) ->
  grows d d' /\ (ok = true -> item_held i d').
Proof.
  intros batch now i d d' ok H. unfold receive in H. destruct i as [name m|name v|b]; cbn [item_held].
  - unfold add_meta in H. destruct (d_meta d !! name) as [m0|] eqn:M.
    + injection H as <- <-. split; [apply grows_refl|]. intros _. by eexists.
    + rewrite create_version_bucket_eq in H. destruct (decide (name = [])) as [->|NE].
      { injection H as <- <-. gr. }
      destruct (d_vers d !! name) as [b|] eqn:V; injection H as <- <-; [gr|]. split.
      * split_and!.
        -- intros k [x X]. cbn. destruct (decide (k = name)) as [->|N]; [rewrite lookup_insert|rewrite lookup_insert_ne by done]; by eexists.
        -- done.
        -- intros k v [[x X]|X]; [left|by right]. unfold get_ver in *. cbn.
           destruct (decide (k = name)) as [->|N]; [by rewrite V in X|]. rewrite lookup_insert_ne by done. by eexists.
      * intros _. cbn. rewrite lookup_insert. by eexists.
  - unfold repo_add_version_raft in H. destruct (negb batch && negb (nonempty_ids v)).
    { injection H as <- <-. gr. }
    unfold add_ver_with_sequence in H. destruct (d_vers d !! name) as [b|] eqn:V; [|injection H as <- <-; gr].
    destruct (uid_exists d (v_uid v)) eqn:U. { injection H as <- <-. split; [apply grows_refl|]. intros _. by right. }
    destruct (vb_map b !! vkey name (v_seq v)) as [w|] eqn:W.
    { injection H as <- <-. split; [apply grows_refl|]. intros _. left. unfold get_ver. rewrite V. by exists w. }
    destruct (idx_add (v_hash v) (vkey name (v_seq v)) (d_uid d)) as [ui|] eqn:UI; [|injection H as <- <-; gr].
    destruct (idx_add (v_hash v) (vkey name (v_seq v)) (d_hash d)) as [hi|] eqn:HI; [|injection H as <- <-; gr].
    injection H as <- <-. split.
    + split_and!; [done|done|]. intros k x [X|X].
      * left. unfold get_ver in *. cbn. destruct (decide (k = name)) as [->|N].
        -- rewrite lookup_insert. cbn. rewrite V in X.
           destruct (decide (vkey name (v_seq x) = vkey name (v_seq v))) as [E|N].
           ++ rewrite E, lookup_insert. by eexists.
           ++ by rewrite lookup_insert_ne.
        -- by rewrite lookup_insert_ne.
      * right. apply uid_exists_true in X. apply uid_exists_true. cbn. by eapply idx_add_grows.
    + intros _. left. unfold get_ver. cbn. rewrite !lookup_insert. cbn. rewrite lookup_insert. by eexists.
  - rewrite bkt_create_eq in H. cbn [arrived_bkt b_name] in H.
    destruct (decide (b_name b = [])) as [BN|BN]. { injection H as <- <-. gr. }
    destruct (d_bkt d !! b_name b) as [x|] eqn:X.
    { injection H as <- <-. split; [apply grows_refl|]. intros _. by eexists. }
    injection H as <- <-. split.
    + split_and!; [done| |done]. intros k [y Y]. cbn.
      destruct (decide (k = b_name b)) as [->|N]; [rewrite lookup_insert|rewrite lookup_insert_ne by done]; by eexists.
    + intros _. cbn. rewrite lookup_insert. by eexists.
Qed.

Lemma send_held : forall batch now o i d d' ok, send batch now o i d = (d', ok) ->
  grows d d' /\ (ok = true -> item_held i d').
Proof.
  intros batch now o i d d' ok H. destruct o; cbn [send] in H.
  - by eapply receive_held.
  - injection H as <- <-. gr.
  - destruct (receive batch now i d) as [e b] eqn:E. injection H as <- <-.
    split; [|done]. by eapply receive_held.
Qed.

Lemma item_grows : forall i d d', grows d d' -> item_held i d -> item_held i d'.
Proof. intros i d d' (G1 & G2 & G3). destruct i; cbn; auto. Qed.

Lemma send_versions_held : forall batch now ev name vs d d' ok, send_versions batch now ev name vs d = (d', ok) ->
  grows d d' /\ (ok = true -> forall k v, (k, v) ∈ vs -> held name v d').
Proof.
  intros batch now ev name vs. induction vs as [|[k v] vs IH]; intros d d' ok H; cbn [send_versions] in H.
  - injection H as <- <-. split; [apply grows_refl|]. intros _ k v I. by apply elem_of_nil in I.
  - destruct (send batch now (ev k) (IVer name v) d) as [d1 ok1] eqn:S.
    destruct (send_versions batch now ev name vs d1) as [d2 ok2] eqn:SV. injection H as <- <-.
    destruct (send_held _ _ _ _ _ _ _ S) as [G1 H1]. destruct (IH _ _ _ SV) as [G2 H2].
    split; [by eapply grows_trans|]. intros E k' v' I. apply andb_true_iff in E as [-> ->].
    apply elem_of_cons in I as [I|I]; [|eauto]. apply pair_equal_spec in I as [-> ->].
    exact (item_grows (IVer name v) _ _ G2 (H1 eq_refl)).
Qed.

Lemma taken_grows : forall d0 d d' k, grows d d' -> taken d0 d k -> taken d0 d' k.
Proof. intros d0 d d' k (G1 & G2 & G3) [T1 T2]. split; [auto|]. intros. eauto. Qed.

Lemma remove_meta_others : forall key d, let d' := fst (commit d (remove_meta key d)) in
  d_bkt d' = d_bkt d /\ forall k, k <> key -> kept d d' k.
Proof.
  intros key d. unfold remove_meta. destruct (d_meta d !! key); [|done].
  unfold remove_version_bucket. cbn. destruct (d_vers d !! key); cbn; (split; [done|]); intros k N; split; cbn; by rewrite ?lookup_delete_ne.
Qed.

Lemma move_objects_any : forall batch now ev d0 ks ds dr ok,
  d_bkt ds = d_bkt d0 ->
  (forall key, is_Some (d_meta d0 !! key) -> kept d0 ds key \/ taken d0 dr key) ->
  let '(ds', dr', ok') := fold_left (move_object batch now ev) ks (ds, dr, ok) in
  d_bkt ds' = d_bkt d0 /\ grows dr dr' /\
  (forall key, is_Some (d_meta d0 !! key) -> kept d0 ds' key \/ taken d0 dr' key) /\
  (ok' = true -> ok = true /\ forall key, key ∈ ks -> is_Some (d_meta d0 !! key) -> taken d0 dr' key).
Proof.
  intros batch now ev d0 ks. induction ks as [|key ks IH]; intros ds dr ok HB HK.
  { cbn. split_and!; try done. intros. split; [done|]. intros k I. by apply elem_of_nil in I. }
  cbn [fold_left]. destruct (move_object batch now ev (ds, dr, ok) key) as [[ds1 dr1] ok1] eqn:MO.
  assert (d_bkt ds1 = d_bkt d0 /\ grows dr dr1 /\
    (forall k, is_Some (d_meta d0 !! k) -> kept d0 ds1 k \/ taken d0 dr1 k) /\
    (ok1 = true -> ok = true /\ (is_Some (d_meta d0 !! key) -> taken d0 dr1 key))) as (A1 & A2 & A3 & A4).
  { assert (forall e, grows dr e -> forall k, is_Some (d_meta d0 !! k) -> kept d0 ds k \/ taken d0 e k) as KT.
    { intros e G k I. destruct (HK k I) as [X|X]; [by left|right]. by eapply taken_grows. }
    unfold move_object in MO. destruct (d_meta ds !! key) as [m|] eqn:M.
    2:{ injection MO as <- <- <-. split_and!; try done; apply grows_refl. }
    destruct (send batch now (ev_meta ev key) (IMeta key m) dr) as [e1 o1] eqn:S.
    destruct (send_held _ _ _ _ _ _ _ S) as [G1 H1]. destruct o1.
    2:{ injection MO as <- <- <-. split_and!; try done. by apply KT. }
    destruct (send_versions batch now (ev_ver ev key) key (versions_of key ds) e1) as [e2 o2] eqn:SV.
    destruct (send_versions_held _ _ _ _ _ _ _ _ SV) as [G2 H2].
    assert (grows dr e2) as G by (by eapply grows_trans). destruct o2.
    2:{ injection MO as <- <- <-. split_and!; try done. by apply KT. }
    assert (is_Some (d_meta d0 !! key) -> taken d0 e2 key) as T.
    { intros I. destruct (HK key I) as [[K1 K2]|X]; [|by eapply taken_grows].
      split. { exact (item_grows (IMeta key m) _ _ G2 (H1 eq_refl)). }
      intros b k v Hb Hk. apply (H2 eq_refl k v). unfold versions_of. rewrite K2, Hb. by apply version_list_in. }
    injection MO as <- <- <-. destruct (remove_meta_others key ds) as [R1 R2].
    split_and!; [destruct (ev_del_meta ev key); congruence|done| |done].
    intros k I. destruct (decide (k = key)) as [->|N]; [right; auto|].
    destruct (KT e2 G k I) as [X|X]; [|by right]. left. destruct (ev_del_meta ev key); [|done].
    destruct (R2 k N) as [Y1 Y2], X as [X1 X2]. split; congruence. }
  specialize (IH ds1 dr1 ok1 A1 A3).
  destruct (fold_left (move_object batch now ev) ks (ds1, dr1, ok1)) as [[ds2 dr2] ok2].
  destruct IH as (B1 & B2 & B3 & B4). split_and!; [done|by eapply grows_trans|done|].
  intros E. destruct (B4 E) as [E1 T]. destruct (A4 E1) as [E2 T2]. split; [done|].
  intros k I IS. apply elem_of_cons in I as [->|I]; [|auto]. eapply taken_grows; eauto.
Qed.

Lemma move_buckets_any : forall now ev cache d0 ks ds dr ok, cache_ok cache d0 ->
  (forall name b, d_bkt d0 !! name = Some b -> b_name b = name) ->
  (forall name b, d_bkt ds !! name = Some b -> d_bkt d0 !! name = Some b) ->
  (forall name, is_Some (d_bkt d0 !! name) -> d_bkt ds !! name = d_bkt d0 !! name \/ is_Some (d_bkt dr !! name)) ->
  let '(ds', dr', ok') := fold_left (move_bucket now ev cache) ks (ds, dr, ok) in
  (forall k, kept ds ds' k) /\ grows dr dr' /\
  (forall name, is_Some (d_bkt d0 !! name) -> d_bkt ds' !! name = d_bkt d0 !! name \/ is_Some (d_bkt dr' !! name)) /\
  (ok' = true -> ok = true /\ forall name, name ∈ ks -> is_Some (d_bkt d0 !! name) -> is_Some (d_bkt dr' !! name)).
Proof.
  intros now ev cache d0 ks. induction ks as [|name ks IH]; intros ds dr ok CO NM SUB HK.
  { cbn. split_and!; try done. intros. split; [done|]. intros k I. by apply elem_of_nil in I. }
  cbn [fold_left]. destruct (move_bucket now ev cache (ds, dr, ok) name) as [[ds1 dr1] ok1] eqn:MO.
  assert ((forall k, kept ds ds1 k) /\ grows dr dr1 /\
    (forall n b, d_bkt ds1 !! n = Some b -> d_bkt d0 !! n = Some b) /\
    (forall n, is_Some (d_bkt d0 !! n) -> d_bkt ds1 !! n = d_bkt d0 !! n \/ is_Some (d_bkt dr1 !! n)) /\
    (ok1 = true -> ok = true /\ (is_Some (d_bkt d0 !! name) -> is_Some (d_bkt dr1 !! name)))) as (A1 & A2 & A5 & A3 & A4).
  { assert (forall e, grows dr e -> forall n, is_Some (d_bkt d0 !! n) -> d_bkt ds !! n = d_bkt d0 !! n \/ is_Some (d_bkt e !! n)) as KT.
    { intros e (_ & G & _) k I. destruct (HK k I) as [X|X]; auto. }
    unfold move_bucket in MO.
    destruct (match cache name with Some b => Some b | None => d_bkt ds !! name end) as [b|] eqn:B.
    2:{ injection MO as <- <- <-. split_and!; try done; apply grows_refl. }
    assert (d_bkt d0 !! name = Some b) as B0.
    { destruct (cache name) eqn:C; [|auto]. injection B as <-. by apply CO. }
    destruct (send false now (ev_bkt ev name) (IBkt b) dr) as [e o] eqn:S.
    destruct (send_held _ _ _ _ _ _ _ S) as [G H1]. cbn [item_held] in H1. rewrite (NM _ _ B0) in H1. destruct o.
    2:{ injection MO as <- <- <-. split_and!; try done. by apply KT. }
    injection MO as <- <- <-. split_and!; [| done | | | ].
    - intros k. by destruct (ev_del_bkt ev name).
    - intros n c. destruct (ev_del_bkt ev name); [|auto]. cbn. intros X.
      apply lookup_delete_Some in X as [_ X]. auto.
    - intros n I. destruct (decide (n = name)) as [->|N]; [right; auto|].
      destruct (KT e G n I) as [X|X]; [|by right]. left. destruct (ev_del_bkt ev name); [|done].
      cbn. by rewrite lookup_delete_ne.
    - intros ->. split; [done|]. auto. }
  specialize (IH ds1 dr1 ok1 CO NM A5 A3).
  destruct (fold_left (move_bucket now ev cache) ks (ds1, dr1, ok1)) as [[ds2 dr2] ok2].
  destruct IH as (B1 & B2 & B3 & B4). split_and!; [|by eapply grows_trans|done|].
  { intros k. destruct (A1 k), (B1 k). split; congruence. }
  intros E. destruct (B4 E) as [E1 T]. destruct (A4 E1) as [E2 T2]. split; [done|].
  intros k I IS. apply elem_of_cons in I as [->|I]; [|auto]. apply B2. auto.
Qed.

Lemma move_all_any : forall crc32 sort batch now ev cache prov sid slots ds dr, is_sorter sort ->
  prepare_to sort prov sid slots = true ->
  store_ok ds -> cache_ok cache ds ->
  let '(ds', dr', ok) := move_all crc32 sort batch now ev cache slots ds dr in
  nothing_dropped (fun k => named slots (calc_bytes_slot crc32 k)) ds ds' dr' ok.
Proof.
  intros crc32 sort batch now ev cache prov sid slots ds dr HS PT SO CO. unfold move_all, migrate_metadata, migrate_buckets.
  assert (forall k, moves crc32 (edges_of sort slots) k = true <-> named slots (calc_bytes_slot crc32 k)) as MN
    by (intros k; by eapply moves_named).
  set (ks := filter (fun k => moves crc32 (edges_of sort slots) k = true) (keys (d_meta (fst (fst (ds, dr, true)))))).
  pose proof (move_objects_any batch now ev ds ks ds dr true eq_refl (fun k _ => or_introl (conj eq_refl eq_refl))) as MO.
  destruct (fold_left (move_object batch now ev) ks (ds, dr, true)) as [[ds1 dr1] ok1].
  destruct MO as (A1 & A2 & A3 & A4). cbn [fst].
  set (bs := filter (fun k => moves crc32 (edges_of sort slots) k = true) (keys (d_bkt ds1))).
  pose proof (move_buckets_any now ev cache ds bs ds1 dr1 ok1 CO (so_bkts _ SO)) as MB.
  destruct (fold_left (move_bucket now ev cache) bs (ds1, dr1, ok1)) as [[ds2 dr2] ok2].
  destruct MB as (B1 & B2 & B3 & B4). { by rewrite A1. } { rewrite A1. by left. }
  constructor.
  - intros key I. destruct (A3 key I) as [X|X]; [left|right; by eapply taken_grows].
    destruct (B1 key), X. split; congruence.
  - exact B3.
  - intros E key Hs I. destruct (B4 E) as [E1 _]. destruct (A4 E1) as [_ T].
    eapply taken_grows; [exact B2|]. apply T; [|done]. apply filter_keys. split; [by apply MN|done].
  - intros E name Hs I. destruct (B4 E) as [_ T]. apply T; [|done]. apply filter_keys.
    split; [by apply MN|]. by rewrite A1.
Qed.
