(** Proofs about listings. *)
From Verif Require Import Str_Model Str_Spec Str_Proofs Meta_Model Meta_Spec Meta_Proofs Meta_History Meta_Ids.
From stdpp Require Import gmap sorting.
Local Arguments N.pow : simpl never.

(** ** Prefixes and order *)

Lemma prefixb_iff : forall p s, prefixb p s = true <-> exists t, s = p ++ t.
Proof.
  induction p as [|a p IH]; intros s; cbn; [split; [by exists s|done]|].
  destruct s as [|b s]; [split; [done|intros [t H]; done]|].
  destruct (ascii_dec a b) as [->|N].
  - rewrite IH. split; intros [t H]; exists t; [by rewrite H|by injection H].
  - split; [done|]. intros [t H]. by injection H.
Qed.

Lemma prefix_not_less : forall p t, str_ltb (p ++ t) p = false.
Proof.
  intros p t. rewrite <-(app_nil_r p) at 2. rewrite str_ltb_app. by destruct t.
Qed.

(** Past the block of keys with the prefix there are no more. *)
Lemma prefix_block : forall p k k', str_ltb k p = false -> prefixb p k = false ->
  str_ltb k k' = true -> prefixb p k' = false.
Proof.
  induction p as [|a p IH]; intros k k' H1 H2 H3; [done|].
  destruct k as [|b k]; [done|]. destruct k' as [|c k']; [done|]. cbn in *.
  destruct (N.ltb_spec (N_of_ascii b) (N_of_ascii a)) as [|L1]; [done|].
  destruct (ascii_dec a c) as [<-|]; [|done].
  destruct (N.ltb_spec (N_of_ascii b) (N_of_ascii a)) as [|_]; [lia|].
  destruct (N.eqb_spec (N_of_ascii b) (N_of_ascii a)) as [E|N]; [|done].
  apply N_of_ascii_inj in E. subst b. destruct (ascii_dec a a); [|done]. by eapply IH.
Qed.

Definition matching {A} (p : str) (m : gmap str A) : list str := filter (fun k => prefixb p k = true) (keys m).

Lemma scan_prefix_none : forall p n ks, Forall (fun k => prefixb p k = false) ks -> scan_prefix p n ks = [].
Proof. intros p [|n] [|k ks] H; try done. apply Forall_cons in H as [H _]. cbn. by rewrite H. Qed.

Lemma filter_none : forall p (ks : list str), Forall (fun k => prefixb p k = false) ks ->
  filter (fun k => prefixb p k = true) ks = [].
Proof.
  intros p ks H. induction H as [|k ks Hk H IH]; [done|]. rewrite filter_cons_False; [done|]. by rewrite Hk.
Qed.

Lemma scan_sorted : forall p ks n, StronglySorted klt ks ->
  scan_prefix p n (filter (fun k => str_ltb k p = false) ks) = take n (filter (fun k => prefixb p k = true) ks).
Proof.
  induction ks as [|k ks IH]; intros n Hs; [by destruct n|].
  apply StronglySorted_inv in Hs as [Hs Hk].
  destruct (str_ltb k p) eqn:L.
  - rewrite filter_cons_False by (by rewrite L). rewrite IH by done. rewrite filter_cons_False; [done|].
    intros X. apply prefixb_iff in X as [t ->]. by rewrite prefix_not_less in L.
  - rewrite filter_cons_True by done. destruct n as [|n]; [done|]. cbn [scan_prefix].
    destruct (prefixb p k) eqn:P.
    + rewrite filter_cons_True by done. cbn [take]. by rewrite IH.
    + rewrite filter_cons_False by (by rewrite P). rewrite filter_none; [done|].
      rewrite Forall_forall in Hk |- *. intros x Hx. by eapply prefix_block; [..|apply Hk].
Qed.

Lemma seek_scan_exact : forall {A} p n (m : gmap str A), seek_scan p n m = take n (matching p m).
Proof. intros A p n m. unfold seek_scan, matching. apply scan_sorted, keys_sorted. Qed.

Lemma omap_lookup_all : forall {A} (m : gmap str A) ks, Forall (fun k => is_Some (m !! k)) ks ->
  Some <$> omap (fun k => m !! k) ks = (fun k => m !! k) <$> ks.
Proof.
  intros A m ks H. induction H as [|k ks [x Hx] H IH]; [done|]. cbn. rewrite Hx. cbn. by rewrite IH.
Qed.

Lemma matching_in : forall {A} p (m : gmap str A) k, k ∈ matching p m <-> is_Some (m !! k) /\ exists t, k = p ++ t.
Proof.
  intros A p m k. unfold matching. rewrite elem_of_list_filter, keys_in, prefixb_iff. tauto.
Qed.

Lemma filter_sorted : forall (P : str -> Prop) {D : forall x, Decision (P x)} l,
  StronglySorted klt l -> StronglySorted klt (filter P l).
Proof.
  intros P D l H. induction H as [|k l H IH Hk]; [constructor|].
  destruct (decide (P k)) as [Y|N].
  - rewrite filter_cons_True by done. constructor; [done|].
    rewrite Forall_forall in Hk |- *. intros x Hx. apply Hk. by apply elem_of_list_filter in Hx as [_ ?].
  - by rewrite filter_cons_False.
Qed.

Lemma matching_sorted : forall {A} p (m : gmap str A), StronglySorted klt (matching p m).
Proof. intros. apply filter_sorted, keys_sorted. Qed.

Lemma take_all_keys : forall {A} p n (m : gmap str A), Forall (fun k => is_Some (m !! k)) (take n (matching p m)).
Proof.
  intros A p n m. apply Forall_forall. intros k H.
  assert (k ∈ matching p m) as H' by (rewrite <-(take_drop n (matching p m)); apply elem_of_app; by left).
  by apply matching_in in H' as [? _].
Qed.

Lemma list_metadata_exact : forall p n d,
  Some <$> fst (list_metadata p n d) = (fun k => d_meta d !! k) <$> take n (matching p (d_meta d)).
Proof.
  intros p n d. unfold list_metadata. cbn. rewrite seek_scan_exact. apply omap_lookup_all, take_all_keys.
Qed.

Lemma list_buckets_exact : forall p n d,
  Some <$> fst (list_buckets p n d) = (fun k => d_bkt d !! k) <$> take n (matching p (d_bkt d)).
Proof.
  intros p n d. unfold list_buckets. cbn. rewrite seek_scan_exact. apply omap_lookup_all, take_all_keys.
Qed.

Lemma matching_all : forall {A} (m : gmap str A), matching [] m = keys m.
Proof.
  intros A m. unfold matching. generalize (keys m). induction l as [|k l IH]; [done|]. rewrite filter_cons_True by done.
  by rewrite IH.
Qed.

Lemma keys_length : forall {A} (m : gmap str A), length (keys m) = size m.
Proof.
  intros A m. unfold keys. rewrite (Permutation_length (ksort_perm _)).
  unfold size, map_size. by rewrite fmap_length.
Qed.

Lemma omap_length_all : forall {A} (m : gmap str A) ks, Forall (fun k => is_Some (m !! k)) ks ->
  length (omap (fun k => m !! k) ks) = length ks.
Proof.
  intros A m ks H. apply omap_lookup_all in H. apply (f_equal length) in H. by rewrite !fmap_length in H.
Qed.

(** The total is right without a prefix, and when nothing was cut off. *)
Lemma list_metadata_total : forall p n d, p = [] \/ (length (matching p (d_meta d)) <= n)%nat ->
  snd (list_metadata p n d) = length (matching p (d_meta d)).
Proof.
  intros p n d H. unfold list_metadata. cbn. destruct p as [|c p]; [by rewrite matching_all, keys_length|].
  destruct H as [H|H]; [done|]. rewrite seek_scan_exact, omap_length_all by apply take_all_keys.
  rewrite take_ge by done. done.
Qed.

Lemma list_buckets_total : forall p n d, p = [] \/ (length (matching p (d_bkt d)) <= n)%nat ->
  snd (list_buckets p n d) = length (matching p (d_bkt d)).
Proof.
  intros p n d H. unfold list_buckets. cbn. destruct p as [|c p]; [by rewrite matching_all, keys_length|].
  destruct H as [H|H]; [done|]. rewrite seek_scan_exact, omap_length_all by apply take_all_keys.
  rewrite take_ge by done. done.
Qed.

(** ** Pages of versions *)

Lemma take_sorted : forall n l, StronglySorted klt l -> StronglySorted klt (take n l) /\
  forall x, x ∈ l -> x ∉ take n l -> length (take n l) = n /\ forall y, y ∈ take n l -> klt y x.
Proof.
  induction n as [|n IH]; intros l H.
  - split; [constructor|]. intros x _ _. split; [done|]. intros y Hy. by apply elem_of_nil in Hy.
  - destruct l as [|k l]; [split; [constructor|]; intros x Hx; by apply elem_of_nil in Hx|].
    apply StronglySorted_inv in H as [H Hk]. destruct (IH l H) as [S T]. rewrite Forall_forall in Hk. cbn [take]. split.
    + constructor; [done|]. apply Forall_forall. intros x Hx. apply Hk.
      rewrite <-(take_drop n l). apply elem_of_app. by left.
    + intros x Hx Hn. apply not_elem_of_cons in Hn as [Hn1 Hn2]. apply elem_of_cons in Hx as [Hx|Hx]; [done|].
      destruct (T x Hx Hn2) as [L M]. split; [cbn; by rewrite L|]. intros y Hy.
      apply elem_of_cons in Hy as [->|Hy]; [by apply Hk|by apply M].
Qed.

(** A page of versions of one digit length: increasing numbers from [start] on, and
    whatever is left out comes after a full page. *)
Lemma page_exact : forall K d id start sz k l total, inv K d -> (10 ^ k <= start < 10 ^ (k + 1))%N ->
  (forall n, has_version d id n -> (10 ^ k <= n < 10 ^ (k + 1))%N) ->
  list_versions id start sz d = Some (l, total) ->
  StronglySorted (fun a b => (v_seq a < v_seq b)%N) l /\
  (forall v, v ∈ l -> get_ver id (v_seq v) d = Some v /\ (start <= v_seq v)%N) /\
  (forall n v, get_ver id n d = Some v -> (start <= n)%N -> v ∉ l ->
     length l = sz /\ forall w, w ∈ l -> (v_seq w < n)%N).
Proof.
  intros K d id start sz k l total I Hs Hr HL. unfold list_versions in HL.
  destruct (d_vers d !! id) as [b|] eqn:Hb; [|done]. injection HL as HL _.
  set (ks := filter (fun k0 => str_ltb k0 (vkey id start) = false) (keys (vb_map b))) in *.
  assert (StronglySorted klt ks) as Sk by apply filter_sorted, keys_sorted.
  destruct (take_sorted sz ks Sk) as [St Tt].
  assert (forall x, x ∈ ks <-> exists v, get_ver id (v_seq v) d = Some v /\ x = vkey id (v_seq v) /\ (start <= v_seq v)%N) as Hks.
  { intros x. unfold ks. rewrite elem_of_list_filter, keys_in. unfold get_ver. rewrite Hb.
    destruct (I _ _ Hb) as [_ I2]. split.
    - intros [L [v Hv]]. exists v. pose proof Hv as Hv'. apply I2 in Hv as [-> _]. split_and!; [done|done|].
      destruct (N.le_gt_cases start (v_seq v)) as [?|G]; [done|]. exfalso.
      apply (print_N_order k) in G; [|apply Hr; unfold has_version, get_ver; rewrite Hb; by rewrite Hv'|done].
      apply (vkey_lt id) in G. unfold klt in G. congruence.
    - intros (v & Hv & -> & L). split; [|by eexists].
      destruct (str_ltb _ _) eqn:G; [|done]. exfalso. apply (vkey_lt id) in G.
      apply (print_N_order k) in G; [lia|apply Hr; unfold has_version, get_ver; rewrite Hb; by rewrite Hv|done]. }
  assert (forall x, x ∈ take sz ks -> x ∈ ks) as Hsub.
  { intros x Hx. rewrite <-(take_drop sz ks). apply elem_of_app. by left. }
  assert (l = omap (fun k0 => vb_map b !! k0) (take sz ks)) as -> by done. clear HL.
  assert (forall v, v ∈ omap (fun k0 => vb_map b !! k0) (take sz ks) <->
    get_ver id (v_seq v) d = Some v /\ vkey id (v_seq v) ∈ take sz ks) as Hl.
  { intros v. rewrite elem_of_list_omap. split.
    - intros (x & Hx & Hv). destruct (I _ _ Hb) as [_ I2]. pose proof Hv as Hv'. apply I2 in Hv' as [-> _].
      split; [unfold get_ver; by rewrite Hb|done].
    - intros [Hv Hx]. exists (vkey id (v_seq v)). split; [done|]. unfold get_ver in Hv. by rewrite Hb in Hv. }
  assert (forall v, get_ver id (v_seq v) d = Some v -> (10 ^ k <= v_seq v < 10 ^ (k + 1))%N) as Hr'.
  { intros v Hv. apply Hr. unfold has_version. by rewrite Hv. }
  split_and!.
  - assert (forall x, x ∈ take sz ks -> exists v, vb_map b !! x = Some v /\ x = vkey id (v_seq v) /\ (10 ^ k <= v_seq v < 10 ^ (k + 1))%N) as Hv.
    { intros x Hx. apply Hsub, Hks in Hx as (v & Hv & -> & _). exists v. split_and!; [|done|by apply Hr'|by apply Hr'].
      unfold get_ver in Hv. by rewrite Hb in Hv. }
    revert St Hv. generalize (take sz ks). clear. intros t Ht Hv. induction Ht as [|x t Ht IH Hx]; [constructor|].
    destruct (Hv x) as (v & Gv & -> & Rv); [by constructor|]. cbn. rewrite Gv. constructor.
    + apply IH. intros y Hy. apply Hv. by constructor.
    + apply Forall_forall. intros w Hw. apply elem_of_list_omap in Hw as (y & Hy & Gw).
      destruct (Hv y) as (w' & Gw' & -> & Rw); [by constructor|]. assert (w' = w) as -> by congruence.
      rewrite Forall_forall in Hx. apply Hx in Hy. apply vkey_lt in Hy. by apply (print_N_order k) in Hy.
  - intros v Hv. apply Hl in Hv as [Hv Hx]. split; [done|].
    apply Hsub, Hks in Hx as (w & _ & E & ?). by apply vkey_inj in E as ->.
  - intros n v Hv Hn Hnot. destruct (inv_number _ _ _ _ _ I Hv) as [Es _]. subst n.
    assert (vkey id (v_seq v) ∈ ks) as Hin by (apply Hks; by exists v).
    assert (vkey id (v_seq v) ∉ take sz ks) as Hnin. { intros X. apply Hnot. by apply Hl. }
    destruct (Tt _ Hin Hnin) as [L M]. split.
    + rewrite omap_length_all; [done|]. apply Forall_forall. intros x Hx. apply Hsub in Hx. unfold ks in Hx.
      apply elem_of_list_filter in Hx as [_ Hx]. by apply keys_in in Hx.
    + intros w Hw. apply Hl in Hw as [Hw Hx]. apply M in Hx. apply vkey_lt in Hx.
      by apply (print_N_order k) in Hx; [|apply Hr'|apply Hr'].
Qed.

Lemma list_metadata_spec : forall p n d, exists ks,
  (forall k, k ∈ ks <-> is_Some (d_meta d !! k) /\ exists t, k = p ++ t) /\
  StronglySorted (fun x y => str_ltb x y = true) ks /\
  Some <$> fst (list_metadata p n d) = (fun k => d_meta d !! k) <$> take n ks /\
  (p = [] \/ (length ks <= n)%nat -> snd (list_metadata p n d) = length ks).
Proof.
  intros p n d. exists (matching p (d_meta d)). split_and!.
  - intros k. apply matching_in.
  - apply matching_sorted.
  - apply list_metadata_exact.
  - apply list_metadata_total.
Qed.

Lemma list_buckets_spec : forall p n d, exists ks,
  (forall k, k ∈ ks <-> is_Some (d_bkt d !! k) /\ exists t, k = p ++ t) /\
  StronglySorted (fun x y => str_ltb x y = true) ks /\
  Some <$> fst (list_buckets p n d) = (fun k => d_bkt d !! k) <$> take n ks /\
  (p = [] \/ (length ks <= n)%nat -> snd (list_buckets p n d) = length ks).
Proof.
  intros p n d. exists (matching p (d_bkt d)). split_and!.
  - intros k. apply matching_in.
  - apply matching_sorted.
  - apply list_buckets_exact.
  - apply list_buckets_total.
Qed.

Lemma page_service : forall B ops id page size k l total, history B ops ->
  let d := hrun db_empty ops in
  let start := ((page - 1) * N.of_nat size + 1)%N in
  (1 <= page)%N -> (10 ^ k <= start < 10 ^ (k + 1))%N ->
  (forall n, has_version d id n -> (10 ^ k <= n < 10 ^ (k + 1))%N) ->
  service_list_versions id page size d = Some (l, total) ->
  StronglySorted (fun x y => (v_seq x < v_seq y)%N) l /\
  (forall v, v ∈ l -> get_ver id (v_seq v) d = Some v /\ (start <= v_seq v)%N) /\
  (forall n v, get_ver id n d = Some v -> (start <= n)%N -> v ∉ l ->
     length l = S size /\ forall w, w ∈ l -> (v_seq w < n)%N).
Proof.
  intros B ops id page size k l total H d start Hp Hs Hr HL. unfold service_list_versions in HL.
  destruct (N.eqb_spec page 0); [lia|]. eapply page_exact; [by apply inv_history|exact Hs|exact Hr|exact HL].
Qed.
