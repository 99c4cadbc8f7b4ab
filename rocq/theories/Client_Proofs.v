(** Proofs of the properties of storing and reading objects. *)
From Verif Require Import Str_Model Str_Spec Str_Proofs Meta_Model Meta_Spec Meta_Proofs Meta_History Meta_Ids
  Api_Model Api_Spec Api_Proofs Client_Model Client_Spec.
From stdpp Require Import gmap.
Local Open Scope list_scope.
Local Notation length := List.length.
Local Arguments dispatch : simpl never.
Local Arguments command : simpl never.
Local Arguments N.pow : simpl never.
Local Arguments Z.pow : simpl never.
Local Arguments print_N : simpl never.
Local Arguments unique_text : simpl never.
Local Arguments save_meta : simpl never.
Local Arguments save_version : simpl never.
Local Arguments accepted : simpl never.
Local Arguments u_hash : simpl never.
Local Arguments temp_digest : simpl never.
Local Arguments make_version : simpl never.
Local Arguments big_layout : simpl never.

Lemma save_meta_eq u d : save_meta u d =
  let (d', x) := dispatch (command true (AddMetadata (u_id u) (mk_metadata (u_name u) (u_bucket u) (u_now u) (u_now u)))) d in
  (d', match x with RStatus st _ => (st =? 200)%Z | _ => false end).
Proof. reflexivity. Qed.

Lemma save_version_eq id v d : save_version id v d =
  let (d', x) := dispatch (command true (AddVersion id v)) d in
  (d', match x with RStatus st (Some n) => if (st =? 200)%Z then Some (int32 n) else None | _ => None end).
Proof. reflexivity. Qed.
Local Opaque save_meta save_version.

(** ** Names *)

Lemma object_id_inj b n b' n' : ~ In "/"%char n -> ~ In "/"%char n' ->
  object_id b n = object_id b' n' -> b = b' /\ n = n'.
Proof.
  intros H H' E. unfold object_id in E.
  pose proof (cut_last_app "/"%char b n H) as A. pose proof (cut_last_app "/"%char b' n' H') as B.
  rewrite E, B in A. injection A as -> ->. split; reflexivity.
Qed.

Lemma no_temp ch hash shards : Forall (fun x : str => "."%char ∉ x) (ch_uuids ch) -> temp_digest ch hash shards = [].
Proof.
  intros F. unfold temp_digest.
  destruct (existsb _ _) eqn:E; [|reflexivity]. exfalso.
  apply existsb_exists in E. destruct E as (i & _ & E). apply bool_decide_eq_true in E.
  apply elem_of_list_In, in_map_iff in E. destruct E as (x & E & Hx).
  rewrite Forall_forall in F. apply elem_of_list_In in Hx. apply (F x Hx).
  assert ("."%char ∈ temp_id x) as D.
  { rewrite E. unfold temp_name. apply elem_of_app. right. left. }
  unfold temp_id in D. apply elem_of_app in D. destruct D as [D|D]; [|exact D].
  exfalso. apply elem_of_list_In in D. vm_compute in D. intuition discriminate.
Qed.

Lemma int32_small n : (n < 2 ^ 31)%N -> int32 n = Z.of_N n.
Proof.
  intros H. unfold int32. assert (2 ^ 31 < 2 ^ 32)%N by reflexivity.
  rewrite N.mod_small by lia. assert (Z.of_N n < 2 ^ 31)%Z by (change (2 ^ 31)%Z with (Z.of_N (2 ^ 31)); lia).
  destruct (Z.ltb_spec (Z.of_N n) (2 ^ 31)); [reflexivity|lia].
Qed.

(** ** Versions stay *)

Lemma keeps_version d c d' (id : str) n v : effect d c d' -> ~ removes_version id n c ->
  (forall i m x, c <> UpdateVersion i m x) -> get_ver id n d = Some v -> get_ver id n d' = Some v.
Proof.
  intros E R U G.
  destruct E as [c|i m o Hm0|i m Hn0 Hv|i m Hm0|i v0 b0 hi ui Hb0 Hu Hk Hh Hi|i v0 b0 hi ui Hb0 Hu Hk Hh Hi|i n0 b0 v0 Hb0 Hk
    |i n0 v0 b0 o Hb0 Hk Ht|i b0 Hb0|c m Hc]; unfold with_meta, with_vers, with_hash, with_uid, with_bkt; cbn; try exact G.
  - rewrite gv_clear. destruct (decide (id = i)) as [->|]; [|exact G].
    unfold get_ver in G. rewrite Hv in G. discriminate.
  - rewrite gv_drop. destruct (decide (id = i)) as [->|]; [|exact G]. destruct R. left. left. reflexivity.
  - rewrite gv_put by exact Hb0. destruct (decide (id = i /\ n = next_seq b0)) as [[-> ->]|]; [|exact G].
    unfold get_ver in G. rewrite Hb0, Hk in G. discriminate.
  - rewrite gv_put by exact Hb0. destruct (decide (id = i /\ n = v_seq v0)) as [[-> ->]|]; [|exact G].
    unfold get_ver in G. rewrite Hb0, Hk in G. discriminate.
  - rewrite gv_del by exact Hb0. destruct (decide (id = i /\ n = n0)) as [[-> ->]|]; [|exact G].
    destruct R. right. reflexivity.
  - destruct (U i n0 v0 eq_refl).
  - rewrite gv_clear. destruct (decide (id = i)) as [->|]; [|exact G]. destruct R. left. right. reflexivity.
Qed.

(** ** The invariant *)

Definition settled (t : thread) : bool :=
  match t with PDone _ _ _ | BDone _ _ _ | BCommit _ _ _ => true | _ => false end.

Section Proofs.
  Variable sha : str -> str.
  Variable comp decomp : str -> str.
  Variable other_size : str -> Z -> str.
  Variable cf : config.
  Hypothesis Hlen : forall x, length (sha x) = 64.
  (** What every client may be assumed to do. *)
  Variable good : upload -> Prop.
  Hypothesis Hgood : cf_checksum cf = true \/ forall u, good u -> honest sha u.

  Local Notation advance := (advance sha cf).
  Local Notation cstep := (cstep sha cf).
  Local Notation crun := (crun sha cf).
  Local Notation u_hash := (u_hash sha).

  Definition in_order (m : gmap str stored) (t : thread) : Prop :=
    match t with
    | PMeta u l | PVersion u l | PDone u l (Some _) => is_Some (m !! u_hash u l)
    | BFinish u l loc => loc = true -> is_Some (m !! u_hash u l)
    | BMeta u l loc | BVersion u l loc => cf_checksum cf = false /\ (loc = true -> is_Some (m !! u_hash u l))
    | BCommit _ _ _ => cf_checksum cf = false
    | BDone u l (Some _) => cf_checksum cf = false /\ is_Some (m !! u_hash u l)
    | _ => True
    end.

  Record inv_w (K : N) (w : world) : Prop := {
    iw_num : inv K (w_db w);
    iw_dom : inv_dom (w_db w);
    iw_nodup : NoDup (map (fun t => u_uid (t_upload t)) (w_threads w));
    iw_fresh : forall x, (forall t, t ∈ w_threads w -> settled t = true -> u_uid (t_upload t) <> x) ->
      idx_get x (d_uid (w_db w)) = ∅;
    iw_order : forall t, t ∈ w_threads w -> in_order (w_data w) t;
    iw_bound : forall t, t ∈ w_threads w -> u_digest (t_upload t) <> [] /\ u_uid (t_upload t) <> [] /\ good (t_upload t);
    iw_data : forall h s, w_data w !! h = Some s ->
      exists t l, t ∈ w_threads w /\ t_layout t = Some l /\ h = u_hash (t_upload t) l /\
        s = mk_stored (received (t_upload t)) (l_compress l) /\
        sha (received (t_upload t)) = u_digest (t_upload t) }.

  Lemma sha_nonempty x : sha x <> [].
  Proof. intros E. pose proof (Hlen x) as L. rewrite E in L. discriminate. Qed.

  Lemma honest_received u : honest sha u -> received u = u_sent u /\ cut_short u = false /\ sha (received u) = u_digest u.
  Proof.
    intros [Hd Hs]. unfold received, cut_short. rewrite Hs, firstn_all.
    split; [reflexivity|]. split; [|symmetry; exact Hd]. apply Nat.ltb_ge. lia.
  Qed.

  Lemma accepted_digest u : accepted sha cf u = true -> u_digest u <> [] -> good u ->
    sha (received u) = u_digest u.
  Proof.
    unfold accepted. intros A N G. destruct Hgood as [Hc|Hh]; [|apply (honest_received u (Hh u G))].
    rewrite Hc in A. apply bool_decide_eq_true in A.
    destruct (cut_short u); [|exact A]. destruct (N (eq_sym A)).
  Qed.

  (** The step of one thread: what it does to the database and the data. *)
  Lemma advance_same d m t ch : t_upload (snd (advance d m t ch)) = t_upload t /\
    (forall l, t_layout t = Some l -> t_layout (snd (advance d m t ch)) = Some l).
  Proof.
    destruct t; simpl; try (split; [reflexivity|intros ? E; exact E]).
    - destruct (d_bkt d !! u_bucket u) as [b|]; [|split; [reflexivity|intros ? E; discriminate E]].
      destruct (b_readonly b); [split; [reflexivity|intros ? E; discriminate E]|].
      destruct (_ && _); split; first [reflexivity | intros ? E; discriminate E].
    - destruct (accepted sha cf u); [destruct (ch_a ch)|]; split; first [reflexivity | intros ? E; exact E].
    - destruct (ch_a ch); [|split; [reflexivity|intros ? E; exact E]].
      destruct (save_meta u d) as [d' []]; split; first [reflexivity | intros ? E; exact E].
    - destruct (d_bkt d !! u_bucket u) as [b|]; [|split; [reflexivity|intros ? E; discriminate E]].
      destruct (b_readonly b); [split; [reflexivity|intros ? E; discriminate E]|].
      destruct (_ && _); split; first [reflexivity | intros ? E; discriminate E].
    - destruct (_ =? _)%nat; split; first [reflexivity | intros ? E; exact E].
    - destruct (cf_checksum cf); [destruct (bool_decide _)|]; split; first [reflexivity | intros ? E; exact E].
    - destruct (ch_a ch); [|split; [reflexivity|intros ? E; exact E]].
      destruct (save_meta u d) as [d' []]; split; first [reflexivity | intros ? E; exact E].
    - match goal with |- context [save_version ?i ?x d] => destruct (save_version i x d) as [d' [r|]] end; [destruct loc|]; split; first [reflexivity | intros ? E; exact E].
  Qed.

  Lemma thread_step K w k t t' d' m' : inv_w K w -> w_threads w !! k = Some t ->
    t_upload t' = t_upload t -> (forall l, t_layout t = Some l -> t_layout t' = Some l) ->
    (settled t = true -> settled t' = true) ->
    inv (K + 1) d' -> inv_dom d' ->
    (forall x, u_uid (t_upload t) <> x \/ settled t' = false -> idx_get x (d_uid (w_db w)) = ∅ -> idx_get x (d_uid d') = ∅) ->
    (forall h s, m' !! h = Some s -> w_data w !! h = Some s \/
       exists l, t_layout t' = Some l /\ h = u_hash (t_upload t) l /\
         s = mk_stored (received (t_upload t)) (l_compress l) /\ sha (received (t_upload t)) = u_digest (t_upload t)) ->
    (forall h, is_Some (w_data w !! h) -> is_Some (m' !! h)) ->
    in_order m' t' ->
    inv_w (K + 1) (mk_world d' m' (<[ k := t' ]> (w_threads w))).
  Proof.
    intros [N D U F O B S] Hk Eu El Es HN HD HF HS HM HO.
    assert (forall x, x ∈ <[k:=t']> (w_threads w) -> x = t' \/ x ∈ w_threads w) as Hin.
    { intros x Hx. apply elem_of_list_lookup in Hx. destruct Hx as [j Hj].
      destruct (decide (k = j)) as [->|Nk].
      - rewrite list_lookup_insert in Hj by (apply lookup_lt_Some in Hk; exact Hk). left. injection Hj as <-. reflexivity.
      - rewrite list_lookup_insert_ne in Hj by exact Nk. right. exact (elem_of_list_lookup_2 _ _ _ Hj). }
    assert (t' ∈ <[k:=t']> (w_threads w)) as Ht'.
    { apply (elem_of_list_lookup_2 _ k). apply list_lookup_insert. apply lookup_lt_Some in Hk. exact Hk. }
    assert (forall x, x ∈ w_threads w -> x = t \/ x ∈ <[k:=t']> (w_threads w)) as Hin2.
    { intros x Hx. apply elem_of_list_lookup in Hx. destruct Hx as [j Hj].
      destruct (decide (k = j)) as [->|Nk].
      - left. rewrite Hk in Hj. injection Hj as <-. reflexivity.
      - right. apply (elem_of_list_lookup_2 _ j). rewrite list_lookup_insert_ne by exact Nk. exact Hj. }
    split; simpl.
    - exact HN.
    - exact HD.
    - replace (map (fun t => u_uid (t_upload t)) (<[k:=t']> (w_threads w)))
        with (map (fun t => u_uid (t_upload t)) (w_threads w)); [exact U|].
      apply list_eq. intros j. change (@map thread str) with (@fmap list list_fmap thread str). rewrite !list_lookup_fmap.
      destruct (decide (k = j)) as [->|Nk].
      + rewrite list_lookup_insert by (apply lookup_lt_Some in Hk; exact Hk). rewrite Hk. simpl. rewrite Eu. reflexivity.
      + rewrite list_lookup_insert_ne by exact Nk. reflexivity.
    - intros x Hx. destruct (settled t') eqn:Est.
      + apply HF; [left; rewrite <- Eu; exact (Hx t' Ht' Est)|].
        apply F. intros y Hy Sy. destruct (Hin2 y Hy) as [->|Hy']; [rewrite <- Eu; exact (Hx t' Ht' Est)|exact (Hx y Hy' Sy)].
      + apply HF; [right; reflexivity|].
        apply F. intros y Hy Sy. destruct (Hin2 y Hy) as [->|Hy']; [|exact (Hx y Hy' Sy)].
        discriminate (Es Sy).
    - intros y Hy. destruct (Hin y Hy) as [->|Hy']; [exact HO|].
      pose proof (O y Hy') as Oy. destruct y as [| | | |? ? [] | | | | | | |? ? []]; simpl in *; try exact Oy; try exact I; try (apply HM, Oy);
        try (intros El'; apply HM, Oy, El'); (split; [apply Oy|]); try (intros El'); apply HM, Oy; try exact El'.
    - intros y Hy. destruct (Hin y Hy) as [->|Hy']; [|exact (B y Hy')].
      rewrite Eu. exact (B t (elem_of_list_lookup_2 _ _ _ Hk)).
    - intros h s Hs. destruct (HS h s Hs) as [Hs'|(l & A1 & A2 & A3 & A4)].
      + destruct (S h s Hs') as (y & l & B1 & B2 & B3 & B4 & B5).
        destruct (Hin2 y B1) as [->|Hy'].
        * exists t', l. rewrite Eu. split; [exact Ht'|]. split; [exact (El l B2)|]. split; [exact B3|]. split; [exact B4|exact B5].
        * exists y, l. split; [exact Hy'|]. split; [exact B2|]. split; [exact B3|]. split; [exact B4|exact B5].
      + exists t', l. rewrite Eu. split; [exact Ht'|]. split; [exact A1|]. split; [exact A2|]. split; [exact A3|exact A4].
  Qed.

  Lemma dispatch_inv K d c : inv K d -> inv_dom d -> (K + 1 < 2 ^ 64)%N -> (forall id v, c <> MigrateVersion id v) ->
    inv (K + 1) (fst (dispatch (command true c) d)) /\ inv_dom (fst (dispatch (command true c) d)).
  Proof.
    intros N D HK Hm. pose proof (dispatch_effect true c d) as E. split.
    - apply (inv_effect 0 K d c); [exact N|exact E| |lia|exact HK]. intros id v X. destruct (Hm id v X).
    - exact (inv_dom_effect d c _ D E).
  Qed.

  Lemma dispatch_fresh d c x : ~ uses_id x c -> idx_get x (d_uid d) = ∅ ->
    idx_get x (d_uid (fst (dispatch (command true c) d))) = ∅.
  Proof. intros U F. exact (fresh_effect x d c _ F U (dispatch_effect true c d)). Qed.

  Lemma inv_up K d : inv K d -> inv (K + 1) d.
  Proof. apply inv_weaken. lia. Qed.

  Lemma put_data_in h c b ch m k s : put_data h c b ch m !! k = Some s -> m !! k = Some s \/ (k = h /\ s = mk_stored c b).
  Proof.
    unfold put_data. destruct (_ || _); [|intros E; left; exact E]. intros E.
    apply lookup_insert_Some in E. destruct E as [[<- <-]|[_ E]]; [right; split; reflexivity|left; exact E].
  Qed.

  Lemma put_data_keep h c b ch m k : is_Some (m !! k) -> is_Some (put_data h c b ch m !! k).
  Proof.
    unfold put_data. destruct (_ || _); [|intros E; exact E]. intros E.
    apply lookup_insert_is_Some'. right. exact E.
  Qed.

  Lemma unsettled_fresh K w k t : inv_w K w -> w_threads w !! k = Some t -> settled t = false ->
    idx_get (u_uid (t_upload t)) (d_uid (w_db w)) = ∅.
  Proof.
    intros I Hk Es. apply (iw_fresh _ _ I). intros y Hy Sy E.
    apply elem_of_list_lookup in Hy. destruct Hy as [j Hj].
    assert (k = j) as ->.
    { apply (NoDup_lookup _ _ _ (u_uid (t_upload t)) (iw_nodup _ _ I)).
      - change (@map thread str) with (@fmap list list_fmap thread str). rewrite list_lookup_fmap, Hk. reflexivity.
      - change (@map thread str) with (@fmap list list_fmap thread str). rewrite list_lookup_fmap, Hj. simpl. rewrite E. reflexivity. }
    rewrite Hk in Hj. injection Hj as <-. rewrite Es in Sy. discriminate.
  Qed.

  Lemma step_inv K w k ch : inv_w K w -> (K + 1 < 2 ^ 64)%N ->
    Forall (fun x : str => "."%char ∉ x) (ch_uuids ch) -> inv_w (K + 1) (cstep w (CStep k ch)).
  Proof.
    intros I HK HU. simpl. destruct (w_threads w !! k) as [t|] eqn:Hk.
    2: { destruct I as [N D U F O B S]. split; try assumption. exact (inv_up _ _ N). }
    pose proof (advance_same (w_db w) (w_data w) t ch) as [Eu El].
    pose proof (iw_order _ _ I t (elem_of_list_lookup_2 _ _ _ Hk)) as Ot.
    pose proof (iw_bound _ _ I t (elem_of_list_lookup_2 _ _ _ Hk)) as (Bt & _ & Gt).
    destruct (advance (w_db w) (w_data w) t ch) as [[d' m'] t'] eqn:E. simpl in Eu, El.
    pose proof (inv_up _ _ (iw_num _ _ I)) as HN. pose proof (iw_dom _ _ I) as HD.
    assert (forall st : d' = w_db w /\ m' = w_data w, (settled t = true -> settled t' = true) -> in_order (w_data w) t' ->
      inv_w (K + 1) (mk_world d' m' (<[ k := t' ]> (w_threads w)))) as Hsame.
    { intros [-> ->] Hs Ho. apply (thread_step K w k t); try assumption.
      - intros x _ Hx. exact Hx.
      - intros h s Hs'. left. exact Hs'.
      - intros h Hh. exact Hh. }
    assert (forall c, d' = fst (dispatch (command true c) (w_db w)) -> m' = w_data w ->
      (forall id v, c <> MigrateVersion id v) -> (forall x, u_uid (t_upload t) <> x \/ settled t' = false -> ~ uses_id x c) ->
      (settled t = true -> settled t' = true) -> in_order (w_data w) t' ->
      inv_w (K + 1) (mk_world d' m' (<[ k := t' ]> (w_threads w)))) as Hcall.
    { intros c -> -> Hm Hf Hs Ho.
      destruct (dispatch_inv K (w_db w) c (iw_num _ _ I) HD HK Hm) as [N' D'].
      apply (thread_step K w k t); try assumption.
      - intros x Hx F. exact (dispatch_fresh _ _ _ (Hf x Hx) F).
      - intros h s Hs'. left. exact Hs'.
      - intros h Hh. exact Hh. }
    destruct t as [u|u l|u l|u l|u l r|u|u l|u l loc|u l loc|u l loc|u l n|u l r]; simpl in E.
    - destruct (d_bkt (w_db w) !! u_bucket u) as [b|].
      2: { injection E as <- <- <-. apply Hsame; [split; reflexivity|discriminate|exact Logic.I]. }
      destruct (b_readonly b).
      { injection E as <- <- <-. apply Hsame; [split; reflexivity|discriminate|exact Logic.I]. }
      destruct (_ && _) eqn:Ec; injection E as <- <- <-; apply Hsame; try (split; reflexivity); try discriminate.
      simpl. apply andb_true_iff in Ec. destruct Ec as [_ Ec]. apply andb_true_iff in Ec. destruct Ec as [_ Ec].
      exact (bool_decide_eq_true_1 _ Ec).
    - destruct (accepted sha cf u) eqn:Ea.
      2: { injection E as <- <- <-. apply Hsame; [split; reflexivity|discriminate|exact Logic.I]. }
      injection E as <- <- <-.
      apply (thread_step K w k (PUpload u l)); try assumption.
      + discriminate.
      + intros x _ Hx. exact Hx.
      + intros h s Hs. apply put_data_in in Hs. destruct Hs as [Hs|[-> ->]]; [left; exact Hs|]. right. exists l.
        split; [destruct (ch_a ch); reflexivity|]. split; [reflexivity|]. split; [reflexivity|].
        exact (accepted_digest u Ea Bt Gt).
      + intros h. apply put_data_keep.
      + destruct (ch_a ch) eqn:Eca; [|exact Logic.I]. simpl. unfold put_data. rewrite Eca. simpl.
        rewrite lookup_insert. eexists. reflexivity.
    - destruct (ch_a ch).
      2: { injection E as <- <- <-. apply Hsame; [split; reflexivity|discriminate|exact Ot]. }
      rewrite save_meta_eq in E. destruct (dispatch _ (w_db w)) as [d1 x] eqn:Ed.
      set (c := AddMetadata _ _) in Ed.
      destruct (match x with RStatus st _ => (st =? 200)%Z | _ => false end); injection E as <- <- <-;
        (apply (Hcall c); [rewrite Ed; reflexivity|reflexivity|discriminate| |discriminate|]);
        try (intros y _ [(i & v & X & _)|(i & v & X & _)]; discriminate X).
      + exact Ot.
      + exact Logic.I.
    - rewrite save_version_eq in E. destruct (dispatch _ (w_db w)) as [d1 x] eqn:Ed.
      set (c := AddVersion _ _) in Ed. injection E as <- <- <-.
      apply (Hcall c); [rewrite Ed; reflexivity|reflexivity|discriminate| |discriminate|].
      + intros y [Hy|Hy]; [|discriminate Hy]. intros [(i & v & X & <-)|(i & v & X & _)]; [|discriminate X].
        unfold c in X. injection X as _ X. apply Hy. rewrite <- X. reflexivity.
      + simpl. destruct x as [st [n|]| |]; try exact Logic.I. destruct (st =? 200)%Z; [exact Ot|exact Logic.I].
    - injection E as <- <- <-. apply Hsame; [split; reflexivity|reflexivity|exact Ot].
    - destruct (d_bkt (w_db w) !! u_bucket u) as [b|].
      2: { injection E as <- <- <-. apply Hsame; [split; reflexivity|discriminate|exact Logic.I]. }
      destruct (b_readonly b).
      { injection E as <- <- <-. apply Hsame; [split; reflexivity|discriminate|exact Logic.I]. }
      destruct (_ && _) eqn:Ec; injection E as <- <- <-; apply Hsame; try (split; reflexivity); try discriminate.
      intros _. apply andb_true_iff in Ec. destruct Ec as [_ Ec]. exact (bool_decide_eq_true_1 _ Ec).
    - destruct (_ =? _)%nat; injection E as <- <- <-; apply Hsame; try (split; reflexivity); try discriminate.
    - destruct (cf_checksum cf) eqn:Hc.
      + rewrite bool_decide_eq_false_2 in E.
        2: { rewrite no_temp by exact HU. intros X. exact (sha_nonempty _ (eq_sym X)). }
        injection E as <- <- <-. apply Hsame; [split; reflexivity|discriminate|exact Logic.I].
      + injection E as <- <- <-. apply Hsame; [split; reflexivity|discriminate|split; [exact Hc|exact Ot]].
    - destruct (ch_a ch).
      2: { injection E as <- <- <-. apply Hsame; [split; reflexivity|discriminate|exact Ot]. }
      rewrite save_meta_eq in E. destruct (dispatch _ (w_db w)) as [d1 x] eqn:Ed.
      set (c := AddMetadata _ _) in Ed.
      destruct (match x with RStatus st _ => (st =? 200)%Z | _ => false end); injection E as <- <- <-;
        (apply (Hcall c); [rewrite Ed; reflexivity|reflexivity|discriminate| |discriminate|]);
        try (intros y _ [(i & v & X & _)|(i & v & X & _)]; discriminate X).
      + exact Ot.
      + exact Logic.I.
    - rewrite save_version_eq in E. destruct (dispatch _ (w_db w)) as [d1 x] eqn:Ed.
      set (c := AddVersion _ _) in Ed. injection E as <- <- <-.
      apply (Hcall c); [rewrite Ed; reflexivity|reflexivity|discriminate| | |].
      + intros y [Hy|Hy].
        * intros [(i & v & X & <-)|(i & v & X & _)]; [|discriminate X].
          unfold c in X. injection X as _ X. apply Hy. rewrite <- X. reflexivity.
        * exfalso. destruct x as [st [n|]| |]; simpl in Hy; try discriminate Hy.
          destruct (st =? 200)%Z; [destruct loc|]; discriminate Hy.
      + discriminate.
      + destruct x as [st [n|]| |]; try exact Logic.I. destruct (st =? 200)%Z; [|exact Logic.I].
        destruct loc; simpl.
        * split; [apply Ot|apply Ot; reflexivity].
        * apply Ot.
    - assert (sha (u_sent u) = u_digest u /\ received u = u_sent u) as [Es Er].
      { destruct Hgood as [Hc|Hh].
        - simpl in Ot. rewrite Hc in Ot. discriminate Ot.
        - destruct (honest_received u (Hh u Gt)) as (A & _ & B). rewrite <- A at 1. split; [exact B|exact A]. }
      injection E as <- <- <-.
      apply (thread_step K w k (BCommit u l n)); try assumption.
      + reflexivity.
      + intros x _ Hx. exact Hx.
      + intros h s Hs. apply put_data_in in Hs. destruct Hs as [Hs|[-> ->]]; [left; exact Hs|]. right. exists l.
        split; [reflexivity|]. split; [reflexivity|]. simpl. rewrite Er. split; [reflexivity|exact Es].
      + intros h. apply put_data_keep.
      + simpl. destruct (ch_a ch) eqn:Eca; [|exact Logic.I]. split; [exact Ot|]. unfold put_data. rewrite Eca. simpl.
        rewrite lookup_insert. eexists. reflexivity.
    - injection E as <- <- <-. apply Hsame; [split; reflexivity|reflexivity|exact Ot].
  Qed.

  Lemma start_thread_inv K w t u : inv_w K w -> t = PLocate u \/ t = BPost u -> u_digest u <> [] -> u_uid u <> [] -> good u ->
    u_uid u ∉ map (fun t => u_uid (t_upload t)) (w_threads w) ->
    inv_w (K + 1) (mk_world (w_db w) (w_data w) (w_threads w ++ [t])).
  Proof.
    intros [N D U F O B S] Et Hd Hu Hg Hn. assert (t_upload t = u) as Eu by (destruct Et as [->| ->]; reflexivity).
    split; simpl.
    - exact (inv_up _ _ N).
    - exact D.
    - rewrite map_app. apply NoDup_app. split; [exact U|]. split; [|simpl; apply NoDup_singleton].
      intros x Hx Hx'. simpl in Hx'. apply elem_of_list_singleton in Hx'. subst x. rewrite Eu in Hx. exact (Hn Hx).
    - intros x Hx. apply F. intros y Hy. apply Hx. apply elem_of_app. left. exact Hy.
    - intros y Hy. apply elem_of_app in Hy. destruct Hy as [Hy|Hy]; [exact (O y Hy)|].
      apply elem_of_list_singleton in Hy. subst y. destruct Et as [->| ->]; exact Logic.I.
    - intros y Hy. apply elem_of_app in Hy. destruct Hy as [Hy|Hy]; [exact (B y Hy)|].
      apply elem_of_list_singleton in Hy. subst y. rewrite Eu. split; [exact Hd|]. split; [exact Hu|exact Hg].
    - intros h s Hs. destruct (S h s Hs) as (y & l & B1 & B2). exists y, l. split; [|exact B2].
      apply elem_of_app. left. exact B1.
  Qed.

  Lemma cstep_uids w a : exists us, map (fun t => u_uid (t_upload t)) (w_threads (cstep w a)) =
    map (fun t => u_uid (t_upload t)) (w_threads w) ++ us /\ forall x, x ∈ us -> x ∈ map u_uid (started a).
  Proof.
    assert (forall l : list str, l = l ++ []) as Hnil by (intros l; symmetry; apply app_nil_r).
    destruct a as [u|u|k ch|c]; simpl.
    - destruct (bound u); simpl.
      + rewrite map_app. eexists. split; [reflexivity|]. intros x Hx. exact Hx.
      + exists []. split; [apply Hnil|]. intros x Hx. apply elem_of_nil in Hx. destruct Hx.
    - destruct (bound u); simpl.
      + rewrite map_app. eexists. split; [reflexivity|]. intros x Hx. exact Hx.
      + exists []. split; [apply Hnil|]. intros x Hx. apply elem_of_nil in Hx. destruct Hx.
    - exists []. split; [|intros x Hx; exact Hx]. rewrite <- Hnil.
      destruct (w_threads w !! k) as [t|] eqn:Hk; [|reflexivity].
      pose proof (advance_same (w_db w) (w_data w) t ch) as [Eu _].
      destruct (advance (w_db w) (w_data w) t ch) as [[d' m'] t']. simpl in *.
      apply list_eq. intros j. change (@map thread str) with (@fmap list list_fmap thread str). rewrite !list_lookup_fmap.
      destruct (decide (k = j)) as [->|Nk].
      + rewrite list_lookup_insert by (apply lookup_lt_Some in Hk; exact Hk). rewrite Hk. simpl. rewrite Eu. reflexivity.
      + rewrite list_lookup_insert_ne by exact Nk. reflexivity.
    - exists []. split; [apply Hnil|]. intros x Hx. exact Hx.
  Qed.

  Lemma bound_digest u : bound u = true -> u_digest u <> [].
  Proof. unfold bound. rewrite !andb_true_iff, !bool_decide_eq_true. intros H. apply H. Qed.

  Lemma cstep_inv K w a : inv_w K w -> (K + 1 < 2 ^ 64)%N -> cact_ok a ->
    Forall (fun u => u_uid u <> []) (started a) -> Forall good (started a) ->
    (forall x, x ∈ map u_uid (started a) -> x ∉ map (fun t => u_uid (t_upload t)) (w_threads w)) ->
    inv_w (K + 1) (cstep w a).
  Proof.
    intros I HK Ha Hn Hg Hu. destruct a as [u|u|k ch|c].
    - simpl in *. destruct (bound u) eqn:E.
      + apply (start_thread_inv K w (PLocate u) u I); [left; reflexivity|exact (bound_digest u E)| | |].
        * inversion Hn. assumption.
        * inversion Hg. assumption.
        * apply Hu. left.
      + destruct I as [N D U F O B S]. split; try assumption. exact (inv_up _ _ N).
    - simpl in *. destruct (bound u) eqn:E.
      + apply (start_thread_inv K w (BPost u) u I); [right; reflexivity|exact (bound_digest u E)| | |].
        * inversion Hn. assumption.
        * inversion Hg. assumption.
        * apply Hu. left.
      + destruct I as [N D U F O B S]. split; try assumption. exact (inv_up _ _ N).
    - apply step_inv; assumption.
    - simpl in *. destruct I as [N D U F O B S].
      destruct (dispatch_inv K (w_db w) c N D HK) as [N' D'].
      { intros id v ->. destruct Ha. }
      split; simpl; try assumption.
      intros x Hx. apply dispatch_fresh; [|exact (F x Hx)].
      intros [(i & v & -> & _)|(i & v & -> & _)]; destruct Ha.
  Qed.

  Lemma crun_inv acts : forall K w, inv_w K w -> (K + N.of_nat (length acts) < 2 ^ 64)%N -> Forall cact_ok acts ->
    Forall (fun u => u_uid u <> []) (flat_map started acts) -> Forall good (flat_map started acts) ->
    NoDup (map (fun t => u_uid (t_upload t)) (w_threads w) ++ map u_uid (flat_map started acts)) ->
    inv_w (K + N.of_nat (length acts)) (crun w acts).
  Proof.
    induction acts as [|a acts IH]; intros K w I HK Ha Hn Hg Hd.
    - simpl. rewrite N.add_0_r. exact I.
    - cbn [flat_map] in *. change (length (a :: acts)) with (S (length acts)) in *. change (crun w (a :: acts)) with (crun (cstep w a) acts).
      rewrite map_app in Hd. inversion Ha as [|? ? Ha1 Ha2]. subst.
      apply Forall_app in Hn. destruct Hn as [Hn1 Hn2]. apply Forall_app in Hg. destruct Hg as [Hg1 Hg2].
      rewrite app_assoc in Hd. apply NoDup_app in Hd. destruct Hd as (Hd1 & Hd2 & Hd3).
      apply NoDup_app in Hd1. destruct Hd1 as (Hd4 & Hd5 & Hd6).
      assert (inv_w (K + 1) (cstep w a)) as I'.
      { apply cstep_inv; try assumption; [lia|]. intros x Hx Hx'. exact (Hd5 x Hx' Hx). }
      replace (K + N.of_nat (S (length acts)))%N with ((K + 1) + N.of_nat (length acts))%N by lia.
      apply IH; try assumption; [lia|].
      destruct (cstep_uids w a) as (us & E1 & E2). pose proof (iw_nodup _ _ I') as Hnd.
      apply NoDup_app. split; [exact Hnd|]. split; [|exact Hd3].
      intros x Hx. apply Hd2. rewrite E1 in Hx. apply elem_of_app in Hx. apply elem_of_app.
      destruct Hx as [Hx|Hx]; [left; exact Hx|right; exact (E2 x Hx)].
  Qed.

  Lemma start_inv : inv_w 0 world_start.
  Proof.
    split; simpl.
    - apply inv_empty.
    - intros id. cbn. split; intros [x X]; discriminate X.
    - apply NoDup_nil_2.
    - intros x _. reflexivity.
    - intros t Ht. apply elem_of_nil in Ht. destruct Ht.
    - intros t Ht. apply elem_of_nil in Ht. destruct Ht.
    - intros h s Hs. rewrite lookup_empty in Hs. discriminate.
  Qed.

  Lemma run_inv acts : run_of acts -> Forall good (flat_map started acts) ->
    inv_w (N.of_nat (length acts)) (crun world_start acts).
  Proof.
    intros (A & B & C & D) G. apply (crun_inv acts 0); try assumption.
    - apply start_inv.
    - assert (2 ^ 31 < 2 ^ 64)%N by reflexivity. lia.
  Qed.

  (** ** Later steps keep what was answered *)

  Lemma cstep_version w a (id : str) n v : cact_ok a ->
    (match a with COther c => ~ removes_version id n c | _ => True end) ->
    get_ver id n (w_db w) = Some v -> get_ver id n (w_db (cstep w a)) = Some v.
  Proof.
    intros Ha Hr G.
    assert (forall c, ~ removes_version id n c -> (forall i m x, c <> UpdateVersion i m x) ->
      get_ver id n (fst (dispatch (command true c) (w_db w))) = Some v) as Hc.
    { intros c R U. exact (keeps_version _ c _ id n v (dispatch_effect true c _) R U G). }
    destruct a as [u|u|k ch|c]; simpl.
    - destruct (bound u); exact G.
    - destruct (bound u); exact G.
    - destruct (w_threads w !! k) as [t|]; [|exact G].
      assert (get_ver id n (fst (fst (advance (w_db w) (w_data w) t ch))) = Some v) as X.
      2: { destruct (advance (w_db w) (w_data w) t ch) as [[d' m'] t']. exact X. }
      assert (forall u, get_ver id n (fst (save_meta u (w_db w))) = Some v) as Hm.
      { intros u. rewrite save_meta_eq. pose proof (Hc (AddMetadata (u_id u) (mk_metadata (u_name u) (u_bucket u) (u_now u) (u_now u)))) as H.
        destruct (dispatch _ (w_db w)) as [d1 x]. simpl in *. apply H; [|discriminate].
        intros [[R|R]|R]; discriminate R. }
      assert (forall i x, get_ver id n (fst (save_version i x (w_db w))) = Some v) as Hv.
      { intros i x. rewrite save_version_eq. pose proof (Hc (AddVersion i x)) as H.
        destruct (dispatch _ (w_db w)) as [d1 y]. simpl in *. apply H; [|discriminate].
        intros [[R|R]|R]; discriminate R. }
      destruct t as [u|u l|u l|u l|u l r|u|u l|u l loc|u l loc|u l loc|u l n0|u l r]; simpl; try exact G.
      + destruct (d_bkt (w_db w) !! u_bucket u) as [b|]; [|exact G]. destruct (b_readonly b); [exact G|].
        destruct (_ && _); exact G.
      + destruct (accepted sha cf u); exact G.
      + destruct (ch_a ch); [|exact G]. pose proof (Hm u) as H. destruct (save_meta u (w_db w)). exact H.
      + match goal with |- context [save_version ?i ?x _] => pose proof (Hv i x) as H; destruct (save_version i x (w_db w)) end. exact H.
      + destruct (d_bkt (w_db w) !! u_bucket u) as [b|]; [|exact G]. destruct (b_readonly b); [exact G|].
        destruct (_ && _); exact G.
      + destruct (_ =? _)%nat; exact G.
      + destruct (cf_checksum cf); [destruct (bool_decide _)|]; exact G.
      + destruct (ch_a ch); [|exact G]. pose proof (Hm u) as H. destruct (save_meta u (w_db w)). exact H.
      + match goal with |- context [save_version ?i ?x _] => pose proof (Hv i x) as H; destruct (save_version i x (w_db w)) end. exact H.
    - apply Hc; [exact Hr|]. intros i m x ->. destruct Ha.
  Qed.

  Lemma crun_version acts : forall w (id : str) n v, Forall cact_ok acts -> no_removal id n acts ->
    get_ver id n (w_db w) = Some v -> get_ver id n (w_db (crun w acts)) = Some v.
  Proof.
    induction acts as [|a acts IH]; intros w id n v Ha Hr G; [exact G|].
    inversion Ha as [|? ? Ha1 Ha2]. inversion Hr as [|? ? Hr1 Hr2]. subst. simpl.
    apply IH; try assumption. apply cstep_version; assumption.
  Qed.

  (** Threads never lose their upload or layout. *)
  Lemma cstep_thread w a k t l : w_threads w !! k = Some t -> t_layout t = Some l ->
    exists t', w_threads (cstep w a) !! k = Some t' /\ t_upload t' = t_upload t /\ t_layout t' = Some l.
  Proof.
    intros Hk Hl. destruct a as [u|u|j ch|c]; simpl.
    - exists t. split; [|split; [reflexivity|exact Hl]]. destruct (bound u); [|exact Hk]. simpl.
      apply lookup_app_l_Some, Hk.
    - exists t. split; [|split; [reflexivity|exact Hl]]. destruct (bound u); [|exact Hk]. simpl.
      apply lookup_app_l_Some, Hk.
    - destruct (w_threads w !! j) as [t0|] eqn:Hj.
      2: { exists t. split; [exact Hk|split; [reflexivity|exact Hl]]. }
      pose proof (advance_same (w_db w) (w_data w) t0 ch) as [Eu El].
      destruct (advance (w_db w) (w_data w) t0 ch) as [[d' m'] t']. simpl in *.
      destruct (decide (j = k)) as [->|Nk].
      + rewrite Hk in Hj. injection Hj as <-. exists t'. rewrite list_lookup_insert by (apply lookup_lt_Some in Hk; exact Hk).
        split; [reflexivity|]. split; [exact Eu|exact (El l Hl)].
      + exists t. rewrite list_lookup_insert_ne by exact Nk. split; [exact Hk|split; [reflexivity|exact Hl]].
    - exists t. split; [exact Hk|split; [reflexivity|exact Hl]].
  Qed.

  Lemma crun_thread acts : forall w k t l, w_threads w !! k = Some t -> t_layout t = Some l ->
    exists t', w_threads (crun w acts) !! k = Some t' /\ t_upload t' = t_upload t /\ t_layout t' = Some l.
  Proof.
    induction acts as [|a acts IH]; intros w k t l Hk Hl; [exists t; split; [exact Hk|split; [reflexivity|exact Hl]]|].
    destruct (cstep_thread w a k t l Hk Hl) as (t1 & A & B & C). simpl.
    destruct (IH (cstep w a) k t1 l A C) as (t2 & A2 & B2 & C2).
    exists t2. split; [exact A2|]. split; [rewrite B2; exact B|exact C2].
  Qed.

  (** ** The answered number names the version *)

  (** The step in which a request gets its number. *)
  Lemma number_step d m t ch n : t_number t = None -> t_number (snd (advance d m t ch)) = Some n ->
    exists l c, t_layout t = Some l /\ fst (fst (advance d m t ch)) = fst (save_version (u_id (t_upload t)) (u_version sha (t_upload t) l c) d) /\
      snd (save_version (u_id (t_upload t)) (u_version sha (t_upload t) l c) d) = Some n /\
      settled t = false /\ ((t_resumable t = true -> l_compress l = false) -> c = l_compress l).
  Proof.
    intros E. destruct t as [u|u l|u l|u l|u l r|u|u l|u l loc|u l loc|u l loc|u l n0|u l r]; simpl in *.
    - destruct (d_bkt d !! u_bucket u) as [b|]; [|discriminate]. destruct (b_readonly b); [discriminate|].
      destruct (_ && _); discriminate.
    - destruct (accepted sha cf u); [|discriminate]. destruct (ch_a ch); discriminate.
    - destruct (ch_a ch); [|discriminate]. destruct (save_meta u d) as [d' []]; discriminate.
    - intros En. exists l, (l_compress l). destruct (save_version _ _ d) as [d' r] eqn:Ev in En. rewrite Ev. simpl in *. subst r.
      repeat split.
    - subst r. discriminate.
    - destruct (d_bkt d !! u_bucket u) as [b|]; [|discriminate]. destruct (b_readonly b); [discriminate|].
      destruct (_ && _); discriminate.
    - destruct (_ =? _)%nat; discriminate.
    - destruct (cf_checksum cf); [destruct (bool_decide _)|]; discriminate.
    - destruct (ch_a ch); [|discriminate]. destruct (save_meta u d) as [d' []]; discriminate.
    - intros En. exists l, (if loc then l_compress l else false).
      destruct (save_version _ _ d) as [d' r] eqn:Ev in En. rewrite Ev. simpl in *.
      destruct r as [x|]; [|discriminate En].
      assert (x = n) as -> by (destruct loc; injection En as ->; reflexivity).
      repeat split. intros Hc. destruct loc; [reflexivity|]. rewrite Hc; reflexivity.
    - discriminate.
    - subst r. discriminate.
  Qed.

  Lemma save_inv K w k t n l c : inv_w K w -> (K + 1 < 2 ^ 31)%N ->
    w_threads w !! k = Some t -> settled t = false ->
    snd (save_version (u_id (t_upload t)) (u_version sha (t_upload t) l c) (w_db w)) = Some n ->
    (0 < n)%Z /\ get_ver (u_id (t_upload t)) (Z.to_N n)
      (fst (save_version (u_id (t_upload t)) (u_version sha (t_upload t) l c) (w_db w))) =
      Some (with_seq (Z.to_N n) (u_version sha (t_upload t) l c)).
  Proof.
    intros I HK Hk Hs. rewrite save_version_eq.
    set (u := t_upload t). set (v := u_version sha u l c).
    assert (2 ^ 31 < 2 ^ 64)%N as P by reflexivity.
    pose proof (unsettled_fresh K w k _ I Hk Hs) as F. fold u in F.
    pose proof (iw_bound _ _ I _ (elem_of_list_lookup_2 _ _ _ Hk)) as (_ & Bu & _). fold u in Bu.
    assert (uid_exists (w_db w) (v_uid v) = false) as U. { unfold uid_exists. simpl. rewrite F. reflexivity. }
    destruct (d_meta (w_db w) !! u_id u) as [md|] eqn:Em.
    - destruct (add_fresh K (w_db w) true (u_id u) v (iw_num _ _ I)) as (n0 & A & B & C); try assumption.
      + lia.
      + exact (iw_dom _ _ I).
      + rewrite Em. discriminate.
      + exact (sha_nonempty _).
      + unfold hstep in B.
        destruct (dispatch (command true (AddVersion (u_id u) v)) (w_db w)) as [d' x] eqn:Ed.
        cbn [fst snd] in B, C. subst x. simpl. intros E.
        pose proof (dispatch_inv K (w_db w) (AddVersion (u_id u) v) (iw_num _ _ I) (iw_dom _ _ I)) as [N' _];
          [lia|discriminate|]. rewrite Ed in N'. simpl in N'.
        destruct (inv_number _ _ _ _ _ N' B) as [_ Hb].
        assert (n0 < 2 ^ 31)%N as Hn0 by lia.
        injection E as E. rewrite (int32_small n0 Hn0) in E. subst n. rewrite N2Z.id. split; [lia|exact B].
    - (* no such object: the version is refused *)
      assert (d_vers (w_db w) !! u_id u = None) as Ev.
      { destruct (d_vers (w_db w) !! u_id u) as [b|] eqn:E; [|reflexivity].
        destruct (proj2 (iw_dom _ _ I (u_id u))) as [x X]; [eexists; exact E|]. rewrite Em in X. discriminate. }
      assert (dispatch (command true (AddVersion (u_id u) v)) (w_db w) = (w_db w, RStatus 404 (Some 0%N))) as ->.
      { unfold dispatch, command. simpl. unfold apply_version. simpl. unfold repo_add_version, repo_add_version_seq, add_ver_seq, add_ver.
        simpl. rewrite Ev. reflexivity. }
      simpl. intros E. discriminate E.
  Qed.

  Lemma sent_text w t : t ∈ w_threads w -> u_sent (t_upload t) ∈ hashed_texts w.
  Proof.
    intros H. unfold hashed_texts. apply elem_of_list_In, in_flat_map. exists t. split; [apply elem_of_list_In, H|].
    left. reflexivity.
  Qed.

  Lemma received_text w t : t ∈ w_threads w -> received (t_upload t) ∈ hashed_texts w.
  Proof.
    intros H. unfold hashed_texts. apply elem_of_list_In, in_flat_map. exists t. split; [apply elem_of_list_In, H|].
    right. left. reflexivity.
  Qed.

  Lemma unique_in w t l : t ∈ w_threads w -> t_layout t = Some l ->
    unique_text (u_digest (t_upload t)) (l_strategy l) (l_data l) (l_parity l) (l_compress l) ∈ hashed_texts w.
  Proof.
    intros H E. unfold hashed_texts. apply elem_of_list_In, in_flat_map. exists t. split; [apply elem_of_list_In, H|].
    right. right. rewrite E. left. reflexivity.
  Qed.

  Hypothesis Hcomp : forall x, decomp (comp x) = x.

  Lemma cstep_at w k ch t : w_threads w !! k = Some t ->
    w_db (cstep w (CStep k ch)) = fst (fst (advance (w_db w) (w_data w) t ch)) /\
    w_threads (cstep w (CStep k ch)) !! k = Some (snd (advance (w_db w) (w_data w) t ch)).
  Proof.
    intros Hk. unfold Client_Model.cstep. rewrite Hk. destruct (advance (w_db w) (w_data w) t ch) as [[d' m'] t']. simpl.
    split; [reflexivity|]. apply list_lookup_insert. apply lookup_lt_Some in Hk. exact Hk.
  Qed.

  Lemma read_back acts k ch acts2 t t' t2 l n : run_of (acts ++ CStep k ch :: acts2) ->
    Forall good (flat_map started (acts ++ CStep k ch :: acts2)) ->
    w_threads (crun world_start acts) !! k = Some t -> t_number t = None ->
    w_threads (crun world_start (acts ++ [CStep k ch])) !! k = Some t' -> t_number t' = Some n ->
    let w := crun world_start (acts ++ CStep k ch :: acts2) in
    w_threads w !! k = Some t2 -> t_answered t2 <> None -> t_layout t2 = Some l ->
    let u := t_upload t in
    honest sha u -> (t_resumable t = true -> l_compress l = false) ->
    no_removal (u_id u) (Z.to_N n) acts2 -> collision_free sha w ->
    get_object comp decomp other_size w (u_bucket u) (u_name u) n = Some (u_sent u).
  Proof.
    intros Hrun Hg Hk Hnone Hdone Hnum w H2 Hans Hl2 u [Hd Hs] Hres Hrem Hcf.
    pose proof (run_inv _ Hrun Hg) as Iw. fold w in Iw.
    assert (run_of acts) as Hrun1.
    { destruct Hrun as (A & B & C & D). rewrite flat_map_app in B, C. rewrite map_app in B. apply Forall_app in A, C.
      apply NoDup_app in B. rewrite app_length in D. split; [apply A|]. split; [apply B|]. split; [apply C|]. lia. }
    assert (Forall good (flat_map started acts)) as Hg1.
    { rewrite flat_map_app in Hg. apply Forall_app in Hg. apply Hg. }
    assert (N.of_nat (length acts) + 1 < 2 ^ 31)%N as HK.
    { destruct Hrun as (_ & _ & _ & D). rewrite app_length in D. simpl in D. lia. }
    pose proof (run_inv _ Hrun1 Hg1) as I1.
    assert (crun world_start (acts ++ [CStep k ch]) = cstep (crun world_start acts) (CStep k ch)) as E1.
    { unfold Client_Model.crun. rewrite fold_left_app. reflexivity. }
    rewrite E1 in Hdone.
    destruct (cstep_at _ k ch t Hk) as [Edb Eth]. rewrite Eth in Hdone. injection Hdone as Et'. rewrite <- Et' in Hnum.
    destruct (number_step _ _ t ch n Hnone Hnum) as (l0 & c & L1 & L2 & L3 & L4 & L5).
    destruct (save_inv _ _ k t n l0 c I1 HK Hk L4 L3) as [Hn G]. rewrite <- L2, <- Edb in G. fold u in G.
    assert (w = crun (cstep (crun world_start acts) (CStep k ch)) acts2) as Ew.
    { unfold w, Client_Model.crun. rewrite fold_left_app. reflexivity. }
    assert (Forall cact_ok acts2) as Ha2.
    { destruct Hrun as (A & _). apply Forall_app in A. destruct A as [_ A]. inversion A. assumption. }
    pose proof (crun_version acts2 _ _ _ _ Ha2 Hrem G) as G2. rewrite <- Ew in G2.
    destruct (crun_thread (CStep k ch :: acts2) _ k _ l0 Hk L1) as (t2' & T1 & T2 & T3).
    change (crun (crun world_start acts) (CStep k ch :: acts2)) with (crun (cstep (crun world_start acts) (CStep k ch)) acts2) in T1.
    rewrite <- Ew, H2 in T1. injection T1 as <-. rewrite T3 in Hl2. injection Hl2 as <-. fold u in T2.
    pose proof (elem_of_list_lookup_2 _ _ _ H2) as Ht2.
    assert (is_Some (w_data w !! u_hash u l0)) as [s Es].
    { pose proof (iw_order _ _ Iw _ Ht2) as O. rewrite <- T2.
      destruct t2 as [| | | |u' l' [r|]| | | | | | |u' l' [r|]]; simpl in *; try (destruct (Hans eq_refl)); injection T3 as <-; apply O. }
    destruct (iw_data _ _ Iw _ _ Es) as (t0 & l' & B1 & B2 & B3 & B4 & B5).
    (* equal version hashes: equal texts, equal digests, equal contents *)
    assert (l_compress l' = l_compress l0 /\ received (t_upload t0) = u_sent u) as [Ec Er].
    { unfold Client_Model.u_hash, unique_hash in B3.
      apply Hcf in B3.
      2: { rewrite <- T2. apply (unique_in w t2 l0 Ht2 T3). }
      2: { apply (unique_in w t0 l' B1 B2). }
      destruct (unique_same _ _ _ _ _ _ _ _ _ _ (or_introl (eq_trans (eq_trans (f_equal length Hd) (Hlen _))
        (eq_sym (eq_trans (f_equal length (eq_sym B5)) (Hlen _))))) B3) as (X1 & _ & X2 & _).
      split; [symmetry; exact X2|].
      apply Hcf; [apply (received_text w t0 B1)|rewrite <- T2; apply (sent_text w t2 Ht2)|].
      rewrite B5, <- X1. exact Hd. }
    unfold get_object.
    assert (exists md, d_meta (w_db w) !! object_id (u_bucket u) (u_name u) = Some md) as [md ->].
    { destruct (proj2 (iw_dom _ _ Iw (u_id u))) as [md E]; [|exists md; exact E].
      unfold get_ver in G2. destruct (d_vers (w_db w) !! u_id u) as [b|]; [eexists; reflexivity|discriminate]. }
    unfold service_get_version. destruct (Z.leb_spec n 0); [lia|].
    change (object_id (u_bucket u) (u_name u)) with (u_id u). rewrite G2.
    unfold read_version. simpl. rewrite Es, B4. simpl.
    rewrite Ec, Er, Hs, Z.eqb_refl, (L5 Hres). destruct (l_compress l0); [rewrite Hcomp|]; reflexivity.
  Qed.

  (** With the checksum on, no resumable upload gets anywhere. *)
  Lemma no_resumable acts t : cf_checksum cf = true -> run_of acts -> Forall good (flat_map started acts) ->
    t ∈ w_threads (crun world_start acts) -> t_resumable t = true -> t_number t = None.
  Proof.
    intros Hc Hrun Hg Ht Hr. pose proof (iw_order _ _ (run_inv _ Hrun Hg) t Ht) as O.
    destruct t as [| | | |? ? r| | | | | |u l n|u l [n|]]; simpl in *; try reflexivity; try discriminate Hr; rewrite Hc in O.
    - discriminate O.
    - destruct O. discriminate.
  Qed.
End Proofs.

(** ** Read-only buckets *)

Lemma answered_none sha cf acts : forall w k u l, w_threads w !! k = Some (PDone u l None) \/ w_threads w !! k = Some (BDone u l None) ->
  forall t', w_threads (crun sha cf w acts) !! k = Some t' -> t_number t' = None.
Proof.
  induction acts as [|a acts IH]; intros w k u l H t' Ht.
  - simpl in Ht. destruct H as [H|H]; rewrite H in Ht; injection Ht as <-; reflexivity.
  - apply (IH (cstep sha cf w a) k u l); [|exact Ht]. destruct a as [u0|u0|j ch|c]; simpl; try exact H.
    + destruct (bound u0); [|exact H]. simpl. destruct H as [H|H]; [left|right]; apply lookup_app_l_Some; exact H.
    + destruct (bound u0); [|exact H]. simpl. destruct H as [H|H]; [left|right]; apply lookup_app_l_Some; exact H.
    + destruct (w_threads w !! j) as [t0|] eqn:Hj; [|exact H].
      destruct (decide (j = k)) as [->|N].
      * rewrite Hj in H. assert (advance sha cf (w_db w) (w_data w) t0 ch = (w_db w, w_data w, t0)) as ->.
        { destruct H as [H|H]; injection H as ->; reflexivity. }
        simpl. rewrite list_lookup_insert by (apply lookup_lt_Some in Hj; exact Hj). exact H.
      * destruct (advance sha cf (w_db w) (w_data w) t0 ch) as [[d' m'] t1]. simpl.
        rewrite list_lookup_insert_ne by exact N. exact H.
Qed.

Lemma readonly_refused : forall sha cf w k ch acts t t', w_threads w !! k = Some t ->
  t = PLocate (t_upload t) \/ t = BPost (t_upload t) ->
  match d_bkt (w_db w) !! u_bucket (t_upload t) with Some b => b_readonly b = true | None => True end ->
  w_threads (crun sha cf w (CStep k ch :: acts)) !! k = Some t' -> t_number t' = None.
Proof.
  intros sha cf w k ch acts t t' Hk Ht Hb Hr.
  apply (answered_none sha cf acts (cstep sha cf w (CStep k ch)) k (t_upload t) (u_want (t_upload t))); [|exact Hr].
  destruct (cstep_at sha cf w k ch t Hk) as [_ ->].
  destruct Ht as [Ht|Ht]; rewrite Ht; simpl; destruct (d_bkt (w_db w) !! u_bucket (t_upload t)) as [b|];
    try rewrite Hb; [left|left|right|right]; reflexivity.
Qed.
