(** Proofs about the admin server's listings. *)
From Verif Require Import Str_Model Str_Proofs Meta_Model Meta_Spec Meta_Proofs Meta_History Meta_List Util_Model Util_Spec Util_Proofs Admin_Model Admin_Spec.
From stdpp Require Import gmap sorting.
From Coq Require Import Lia.
Local Open Scope list_scope.

Section Merge.
  Context {A : Type} (key : A -> str).
  Local Notation lt := (fun x y => str_ltb (key x) (key y) = true).

  Lemma lt_sorted_nodup : forall l, StronglySorted lt l -> NoDup (key <$> l).
  Proof.
    intros l S. induction S as [|x l S IH F]; cbn; [constructor|]. constructor; [|exact IH].
    intros I. apply elem_of_list_fmap in I as (y & E & I). rewrite Forall_forall in F. specialize (F y I).
    cbn in F. rewrite E, str_ltb_irrefl in F. discriminate.
  Qed.

  Lemma weak_sorted_strict : forall l, NoDup (key <$> l) ->
    StronglySorted (fun x y => str_ltb (key y) (key x) = false) l -> StronglySorted lt l.
  Proof.
    intros l N S. induction S as [|x l S IH F]; [constructor|]. cbn in N. apply NoDup_cons in N as [N1 N2].
    constructor; [exact (IH N2)|]. apply Forall_forall. intros y I. rewrite Forall_forall in F. specialize (F y I). cbn in F.
    destruct (str_ltb_total (key x) (key y)) as [H|[H|H]]; [exact H| |congruence].
    exfalso. apply N1. rewrite H. apply elem_of_list_fmap. exists y. split; [reflexivity|exact I].
  Qed.

  Lemma prefix_of_sorted : forall F R out, StronglySorted lt (F ++ R) -> StronglySorted lt out ->
    (forall x, x ∈ F -> x ∈ out) -> (forall x, x ∈ out -> x ∈ F ++ R) -> exists R', out = F ++ R'.
  Proof.
    induction F as [|f F IH]; intros R out S So HF HO; [exists out; reflexivity|].
    cbn in S. inversion S as [|? ? S' Fa]; subst. rewrite Forall_forall in Fa.
    destruct out as [|o out].
    - specialize (HF f (elem_of_list_here _ _)). inversion HF.
    - inversion So as [|? ? So' Fo]; subst. rewrite Forall_forall in Fo.
      assert (o = f) as ->.
      { pose proof (HF f (elem_of_list_here _ _)) as I. apply elem_of_cons in I as [I|I]; [done|].
        pose proof (Fo f I) as L. pose proof (HO o (elem_of_list_here _ _)) as J. cbn in J.
        apply elem_of_cons in J as [J|J]; [done|]. specialize (Fa o J).
        cbn in L, Fa. pose proof (str_ltb_trans _ _ _ L Fa) as T. rewrite str_ltb_irrefl in T. discriminate. }
      destruct (IH R out S' So') as [R' E].
      + intros x I. pose proof (HF x (elem_of_list_further _ _ _ I)) as J. apply elem_of_cons in J as [J|J]; [|exact J].
        subst x. assert (f ∈ F ++ R) as K by (apply elem_of_app; left; exact I). specialize (Fa f K). cbn in Fa.
        rewrite str_ltb_irrefl in Fa. discriminate.
      + intros x I. pose proof (HO x (elem_of_list_further _ _ _ I)) as J. cbn in J. apply elem_of_cons in J as [J|J]; [|exact J].
        subst x. specialize (Fo f I). cbn in Fo. rewrite str_ltb_irrefl in Fo. discriminate.
      + exists R'. rewrite E. reflexivity.
  Qed.

  (** Two lists in order, one within the other: places do not grow. *)
  Lemma sorted_place : forall (L all : list A) i x, StronglySorted lt L -> StronglySorted lt all ->
    (forall y, y ∈ L -> y ∈ all) -> L !! i = Some x -> forall k, x ∈ take k all -> i < k.
  Proof.
    intros L all. revert L. induction all as [|a all IH]; intros L i x SL SA I Li k T.
    - rewrite take_nil in T. inversion T.
    - destruct k as [|k]; [inversion T|]. cbn in T. destruct L as [|l L]; [discriminate|].
      inversion SL as [|? ? SL' FL]; subst. inversion SA as [|? ? SA' FA]; subst.
      rewrite Forall_forall in FL. rewrite Forall_forall in FA.
      destruct i as [|i]; [lia|]. cbn in Li.
      assert (forall y, y ∈ L -> y ∈ all) as I'.
      { intros y Y. pose proof (I y (elem_of_list_further _ _ _ Y)) as J. apply elem_of_cons in J as [J|J]; [|exact J].
        subst y. pose proof (FL a Y) as La. cbn in La. pose proof (I l (elem_of_list_here _ _)) as K.
        apply elem_of_cons in K as [K|K].
        - subst l. rewrite str_ltb_irrefl in La. discriminate.
        - specialize (FA l K). cbn in FA. pose proof (str_ltb_trans _ _ _ La FA) as X. rewrite str_ltb_irrefl in X. discriminate. }
      apply elem_of_cons in T as [T|T].
      + subst x. pose proof (I' a (elem_of_list_lookup_2 _ _ _ Li)) as J. specialize (FA a J). cbn in FA.
        rewrite str_ltb_irrefl in FA. discriminate.
      + specialize (IH L i x SL' SA' I' Li k T). lia.
  Qed.

  Lemma page_merge : forall srt Ls all k, sorts key srt -> List.Forall (StronglySorted lt) Ls ->
    NoDup (key <$> List.concat Ls) -> StronglySorted lt all -> (forall x, x ∈ all <-> x ∈ List.concat Ls) ->
    take k (srt (List.concat (map (take k) Ls))) = take k all.
  Proof.
    intros srt Ls all k Hs FL N SA M.
    destruct (Hs (List.concat (map (take k) Ls))) as [P W]. set (out := srt (List.concat (map (take k) Ls))) in *. clearbody out.
    assert (forall x, x ∈ List.concat (map (take k) Ls) -> x ∈ List.concat Ls) as Sub.
    { clear. induction Ls as [|L Ls IH]; [done|]. cbn. intros x I. apply elem_of_app in I as [I|I]; apply elem_of_app.
      - left. apply elem_of_take in I as (i & I & _). eapply elem_of_list_lookup_2. exact I.
      - right. exact (IH x I). }
    assert (NoDup (key <$> List.concat (map (take k) Ls))) as NT.
    { clear -N. induction Ls as [|L Ls IH]; [exact N|]. cbn in *. rewrite fmap_app in *. apply NoDup_app in N as (N1 & N2 & N3).
      apply NoDup_app. split; [|split].
      - rewrite <- (take_drop k L), fmap_app in N1. apply NoDup_app in N1 as [N1 _]. exact N1.
      - intros x I J. apply elem_of_list_fmap in I as (y & -> & I). apply (N2 (key y)).
        + apply elem_of_list_fmap. exists y. split; [reflexivity|]. apply elem_of_take in I as (i & I & _). eapply elem_of_list_lookup_2. exact I.
        + apply elem_of_list_fmap in J as (z & E & J). apply elem_of_list_fmap. exists z. split; [exact E|].
          clear -J. induction Ls as [|L Ls IH]; [done|]. cbn in *. apply elem_of_app in J as [J|J]; apply elem_of_app.
          * left. apply elem_of_take in J as (i & J & _). eapply elem_of_list_lookup_2. exact J.
          * right. exact (IH J).
      - exact (IH N3). }
    assert (StronglySorted lt out) as SO.
    { apply weak_sorted_strict; [|exact W]. rewrite P. exact NT. }
    assert (forall x, x ∈ take k all -> x ∈ out) as In1.
    { intros x T. rewrite P. assert (x ∈ List.concat Ls) as C.
      { apply M. apply elem_of_take in T as (i & T & _). eapply elem_of_list_lookup_2. exact T. }
      apply elem_of_list_In, in_concat in C as (L & IL & Ix). rewrite List.Forall_forall in FL. specialize (FL L IL).
      apply elem_of_list_In in Ix. apply elem_of_list_lookup in Ix as [i Li].
      assert (i < k) as Lt.
      { apply (sorted_place L all i x FL SA); [|exact Li|exact T]. intros y Y. apply M. apply elem_of_list_In, in_concat.
        exists L. split; [exact IL|]. apply elem_of_list_In. exact Y. }
      apply elem_of_list_In, in_concat. exists (take k L). split; [apply in_map; exact IL|].
      apply elem_of_list_In. apply elem_of_take. exists i. split; [exact Li|exact Lt]. }
    assert (forall x, x ∈ out -> x ∈ take k all ++ drop k all) as In2.
    { intros x I. rewrite take_drop. apply M, Sub. rewrite <- P. exact I. }
    destruct (prefix_of_sorted (take k all) (drop k all) out) as [R' E].
    { rewrite take_drop. exact SA. } { exact SO. } { exact In1. } { exact In2. }
    rewrite E. destruct (decide (k <= length all)) as [Hk|Hk].
    - rewrite <- (take_length_le all k Hk) at 1. apply take_app.
    - assert (R' = []) as ->; [|rewrite app_nil_r, take_take; f_equal; lia].
      destruct R' as [|r R']; [reflexivity|exfalso].
      rewrite E in SO, In2. rewrite take_ge in SO by lia.
      assert (r ∈ all) as Ir. { rewrite <- (take_drop k all). apply In2. rewrite elem_of_app, elem_of_cons. tauto. }
      apply lt_sorted_nodup in SO. rewrite fmap_app in SO. apply NoDup_app in SO as (_ & SO & _).
      apply (SO (key r)); [apply elem_of_list_fmap; exists r; done|cbn; apply elem_of_cons; left; reflexivity].
  Qed.

  Lemma page_cut : forall (l1 l2 : list A) size k, 1 <= k -> take (k * size) l1 = take (k * size) l2 ->
    page_of l1 size k = page_of l2 size k.
  Proof.
    intros l1 l2 size k Hk E. unfold page_of.
    assert (forall l : list A, firstn size (skipn ((k - 1) * size) l) = drop ((k - 1) * size) (take (k * size) l)) as G.
    { intros l. replace (k * size) with ((k - 1) * size + size) by nia. apply take_drop_commute. }
    rewrite !G, E. reflexivity.
  Qed.
End Merge.

(** ** What a server answers *)

Section Shard.
  Context {A : Type} (key : A -> str) (f : db -> gmap str A).

  Definition full (p : str) (d : db) : list A := omap (fun k : str => f d !! k) (matching p (f d)).

  Lemma omap_some : forall (g : str -> option A) ks, Forall (fun k => is_Some (g k)) ks -> Some <$> omap g ks = g <$> ks.
  Proof.
    intros g ks H. induction H as [|k ks [x E] H IH]; [reflexivity|]. cbn. rewrite E. cbn. f_equal. exact IH.
  Qed.

  Lemma full_some : forall p d, Some <$> full p d = (fun k : str => f d !! k) <$> matching p (f d).
  Proof.
    intros p d. apply omap_some. apply Forall_forall. intros k I. apply matching_in in I as [I _]. exact I.
  Qed.

  Lemma some_inj : forall l1 l2 : list A, Some <$> l1 = Some <$> l2 -> l1 = l2.
  Proof. intros l1 l2 E. exact (inj (fmap Some) _ _ E). Qed.

  Lemma answer_full : forall p n d l, Some <$> l = (fun k : str => f d !! k) <$> take n (matching p (f d)) -> l = take n (full p d).
  Proof.
    intros p n d l E. apply some_inj. rewrite E, fmap_take, fmap_take, full_some. reflexivity.
  Qed.

  Lemma full_length : forall p d, length (full p d) = length (matching p (f d)).
  Proof. intros p d. rewrite <- (fmap_length Some), full_some. apply fmap_length. Qed.

  Variable servers : list db.
  Hypothesis K : keyed key f servers.

  Lemma full_keys : forall p d, d ∈ servers -> key <$> full p d = matching p (f d).
  Proof.
    intros p d I. assert (Forall (fun k => is_Some (f d !! k)) (matching p (f d))) as H.
    { apply Forall_forall. intros k J. apply matching_in in J as [J _]. exact J. }
    unfold full. induction H as [|k ks [x E] H IH]; [reflexivity|]. cbn. rewrite E. cbn. f_equal; [|exact IH].
    exact (K d k x I E).
  Qed.

  Lemma full_in : forall p d x, d ∈ servers -> x ∈ full p d <-> f d !! key x = Some x /\ exists t, key x = p ++ t.
  Proof.
    intros p d x I. unfold full. rewrite elem_of_list_omap. split.
    - intros (k & J & E). apply matching_in in J as (_ & t & ->). pose proof (K d _ x I E) as ->.
      split; [exact E|exists t; reflexivity].
    - intros (E & t & T). exists (key x). split; [|exact E]. apply matching_in. split; [exists x; exact E|exists t; exact T].
  Qed.

  Lemma full_sorted : forall p d, d ∈ servers -> StronglySorted (fun x y => str_ltb (key x) (key y) = true) (full p d).
  Proof.
    intros p d I. pose proof (matching_sorted p (f d)) as S. rewrite <- (full_keys p d I) in S.
    generalize (full p d) as l, S. clear. induction l as [|x l IH]; intros S; [constructor|].
    cbn in S. inversion S as [|? ? S' F]; subst. constructor; [exact (IH S')|].
    apply Forall_forall. intros y Y. rewrite Forall_forall in F. apply F. apply elem_of_list_fmap. exists y. done.
  Qed.
End Shard.

Lemma concat_nodup : forall {A} (key : A -> str) (f : db -> gmap str A) p servers,
  keyed key f servers -> apart f servers -> NoDup (key <$> List.concat (map (full f p) servers)).
Proof.
  intros A key f p servers. induction servers as [|d servers IH]; intros K P; [constructor|].
  assert (keyed key f servers) as K'. { intros d' k x I E. exact (K d' k x (elem_of_list_further _ _ _ I) E). }
  cbn. rewrite fmap_app. apply NoDup_app. split; [|split].
  - apply lt_sorted_nodup. exact (full_sorted key f (d :: servers) K p d (elem_of_list_here _ _)).
  - intros k I J. rewrite (full_keys key f (d :: servers) K p d (elem_of_list_here _ _)) in I. apply matching_in in I as [I _].
    apply elem_of_list_fmap in J as (y & -> & J). apply elem_of_list_In, in_concat in J as (L & J & Y).
    apply in_map_iff in J as (d2 & <- & J). apply elem_of_list_In in Y, J.
    apply (full_in key f servers K' p d2 y J) in Y as [Y _]. apply elem_of_list_lookup in J as [j J].
    specialize (P 0 (S j) d d2 (key y) eq_refl J I (ex_intro _ y Y)). discriminate.
  - apply IH; [exact K'|]. intros i j d1 d2 k E1 E2 S1 S2. specialize (P (S i) (S j) d1 d2 k E1 E2 S1 S2). lia.
Qed.

Lemma in_order_concat : forall {A} (key : A -> str) (f : db -> gmap str A) p servers all,
  keyed key f servers -> in_order key f servers p all -> forall x, x ∈ all <-> x ∈ List.concat (map (full f p) servers).
Proof.
  intros A key f p servers all K [_ M] x. rewrite M. rewrite elem_of_list_In, in_concat. split.
  - intros (d & I & E & T). exists (full f p d). split; [apply in_map, elem_of_list_In, I|].
    apply elem_of_list_In. apply (full_in key f servers K p d x I). split; [exact E|exact T].
  - intros (L & J & Y). apply in_map_iff in J as (d & <- & J). apply elem_of_list_In in Y, J.
    exists d. split; [exact J|]. apply (full_in key f servers K p d x J). exact Y.
Qed.

Lemma concat_length_all : forall {A} (key : A -> str) (f : db -> gmap str A) p servers all,
  keyed key f servers -> apart f servers -> in_order key f servers p all ->
  length all = length (List.concat (map (full f p) servers)).
Proof.
  intros A key f p servers all K P O. apply Permutation_length. apply NoDup_Permutation.
  - destruct O as [S _]. apply lt_sorted_nodup in S. exact (NoDup_fmap_1 _ _ S).
  - exact (NoDup_fmap_1 _ _ (concat_nodup key f p servers K P)).
  - exact (in_order_concat key f p servers all K O).
Qed.

(** ** Gathering *)

Lemma gather_objects : forall p n servers, 1 <= n -> (Z.of_nat n <= 10000)%Z ->
  exists t, gather (map (ask_objects p (Z.of_nat n)) servers) =
    Some (List.concat (map (take n) (map (full d_meta p) servers)), t) /\
    (p = [] -> t = length (List.concat (map (full d_meta p) servers))).
Proof.
  intros p n servers Hn Hn'. induction servers as [|d servers (t & E & T)]; [exists 0; split; reflexivity|].
  cbn [map gather List.concat]. unfold ask_objects at 1.
  assert ((Z.of_nat n =? 0)%Z || (10000 <? Z.of_nat n)%Z = false) as -> by lia.
  rewrite Nat2Z.id. destruct (list_metadata p n d) as [x m] eqn:L. rewrite E. exists (m + t). split.
  - f_equal. f_equal. f_equal. apply answer_full. pose proof (list_metadata_exact p n d) as X. rewrite L in X. exact X.
  - intros ->. rewrite app_length, (T eq_refl), full_length. f_equal.
    pose proof (list_metadata_total [] n d (or_introl eq_refl)) as X. rewrite L in X. exact X.
Qed.

Lemma gather_buckets : forall p n servers, 1 <= n -> (Z.of_nat n <= 10000)%Z ->
  exists t, gather (map (ask_buckets p (Z.of_nat n)) servers) =
    Some (List.concat (map (take n) (map (full d_bkt p) servers)), t) /\
    (p = [] -> t = length (List.concat (map (full d_bkt p) servers))).
Proof.
  intros p n servers Hn Hn'. induction servers as [|d servers (t & E & T)]; [exists 0; split; reflexivity|].
  cbn [map gather List.concat]. unfold ask_buckets at 1.
  assert ((Z.of_nat n <=? 0)%Z || (10000 <? Z.of_nat n)%Z = false) as -> by lia.
  rewrite Nat2Z.id. destruct (list_buckets p n d) as [x m] eqn:L. rewrite E. exists (m + t). split.
  - f_equal. f_equal. f_equal. apply answer_full. pose proof (list_buckets_exact p n d) as X. rewrite L in X. exact X.
  - intros ->. rewrite app_length, (T eq_refl), full_length. f_equal.
    pose proof (list_buckets_total [] n d (or_introl eq_refl)) as X. rewrite L in X. exact X.
Qed.

Lemma int64_small : forall z, (0 <= z < 2 ^ 63)%Z -> int64 z = z.
Proof. intros z H. unfold int64. rewrite Z.mod_small by lia. lia. Qed.

Lemma cap_fine : forall n page size, 1 <= page * size -> (Z.of_nat (page * size) <= 10000)%Z -> (Z.of_nat n <= 2 ^ 31)%Z ->
  bad_cap n (Z.of_nat page) (Z.of_nat size) = false.
Proof.
  intros n page size H H' N. unfold bad_cap. cbv zeta.
  replace (Z.of_nat n * Z.of_nat page * Z.of_nat size)%Z with (Z.of_nat n * Z.of_nat (page * size))%Z by lia.
  rewrite int64_small by nia. assert (Z.of_nat n * Z.of_nat (page * size) <= 2 ^ 31 * 10000)%Z by nia. lia.
Qed.

Lemma slice_page : forall {A} (l : list A) size k, 1 <= k -> 1 <= size ->
  exists st ed ok, paging_offset (Z.of_nat k) (Z.of_nat size) (Z.of_nat (length l)) = (st, ed, ok) /\
    slice l st ed = Some (page_of l size k) /\ (ok = false -> page_of l size k = [] /\ length l <= (k - 1) * size) /\
    (ok = true -> (k - 1) * size < length l).
Proof.
  intros A l size k Hk Hs. destruct (paging_page A l size k Hk Hs) as [P1 P2].
  destruct (decide ((k - 1) * size < length l)) as [H|H].
  - destruct (P1 H) as (st & ed & E & S). exists st, ed, true. split; [exact E|]. split; [exact S|]. split; [discriminate|done].
  - destruct P2 as [E S]; [lia|]. exists 0%Z, 0%Z, false. split; [exact E|]. split; [|split; [intros _; split; [exact S|lia]|discriminate]].
    rewrite S. unfold slice. cbn [Z.leb Z.compare andb]. destruct (Z.leb_spec 0 (Z.of_nat (length l))); [reflexivity|lia].
Qed.

Lemma bucket_page : forall srt servers p page size all,
  sorts b_name srt -> keyed b_name d_bkt servers -> apart d_bkt servers -> in_order b_name d_bkt servers p all ->
  1 <= page -> 1 <= size -> (Z.of_nat (page * size) <= 10000)%Z -> (Z.of_nat (length servers) <= 2 ^ 31)%Z ->
  exists t, bucket_paging srt servers p (Z.of_nat page) (Z.of_nat size) = Page (page_of all size page) t /\
    (p = [] -> t = length all).
Proof.
  intros srt servers p page size all Hs K P O Hp Hz Hm Hn.
  unfold bucket_paging. rewrite cap_fine by first [exact Hn|exact Hm|nia].
  assert (page_of all size page = page_of (srt (List.concat (map (take (page * size)) (map (full d_bkt p) servers)))) size page) as E.
  { symmetry. apply page_cut; [exact Hp|]. apply (page_merge b_name); [exact Hs| | | |].
    - apply List.Forall_forall. intros L I. apply in_map_iff in I as (d & <- & I). apply (full_sorted b_name d_bkt servers K), elem_of_list_In, I.
    - exact (concat_nodup b_name d_bkt p servers K P).
    - exact (proj1 O).
    - exact (in_order_concat b_name d_bkt p servers all K O). }
  pose proof (concat_length_all b_name d_bkt p servers all K P O) as EL.
  rewrite E. clear E. destruct servers as [|d0 servers0].
  - cbn in EL. exists 0. split; [|intros _; lia]. cbn [map List.concat].
    destruct (Hs []) as [X _]. cbn in X. apply Permutation_nil_r in X. rewrite X. unfold page_of. rewrite skipn_nil, firstn_nil. reflexivity.
  - set (servers := d0 :: servers0) in *. clearbody servers. clear d0 servers0. 
    rewrite int64_small by nia. replace (Z.of_nat page * Z.of_nat size)%Z with (Z.of_nat (page * size)) by lia.
    destruct (gather_buckets p (page * size) servers) as (t & -> & T); [nia|exact Hm|].
    set (out := srt _). destruct (slice_page out size page Hp Hz) as (st & ed & ok & -> & -> & _). exists t.
    split; [reflexivity|]. intros E. rewrite (T E). symmetry. exact EL.
Qed.

(** ** Objects *)

Lemma ltb_app : forall p x y, str_ltb (p ++ x) (p ++ y) = str_ltb x y.
Proof.
  induction p as [|c p IH]; intros x y; [reflexivity|]. cbn. rewrite N.ltb_irrefl, N.eqb_refl. apply IH.
Qed.

Lemma ltb_close : forall n1 n2, List.Forall (fun c => (41 < N_of_ascii c)%N) n2 ->
  str_ltb n1 n2 = true -> str_ltb (n1 ++ extra_close) (n2 ++ extra_close) = true.
Proof.
  induction n1 as [|c n1 IH]; intros n2 F L; destruct n2 as [|c2 n2]; try discriminate.
  - inversion F as [|? ? F1 _]; subst. change (([] : str) ++ extra_close) with [")"%char].
    change ((c2 :: n2) ++ extra_close) with (c2 :: (n2 ++ extra_close)). cbn [str_ltb]. change (N_of_ascii ")") with 41%N.
    destruct (N.ltb_spec 41 (N_of_ascii c2)); [reflexivity|lia].
  - inversion F as [|? ? _ F2]; subst. cbn in *. destruct (N_of_ascii c <? N_of_ascii c2)%N; [reflexivity|].
    destruct (N_of_ascii c =? N_of_ascii c2)%N; [exact (IH n2 F2 L)|discriminate].
Qed.

Lemma ltb_objects : forall b1 b2 n1 n2, List.Forall (fun c => (47 < N_of_ascii c)%N) b1 -> List.Forall (fun c => (47 < N_of_ascii c)%N) b2 ->
  List.Forall (fun c => (41 < N_of_ascii c)%N) n2 ->
  str_ltb (b1 ++ s2l "/"%string ++ n1) (b2 ++ s2l "/"%string ++ n2) = true ->
  str_ltb (b1 ++ extra_open ++ n1 ++ extra_close) (b2 ++ extra_open ++ n2 ++ extra_close) = true.
Proof.
  induction b1 as [|c b1 IH]; intros b2 n1 n2 F1 F2 F3 L; destruct b2 as [|c2 b2].
  - rewrite !app_nil_l in *. rewrite ltb_app in L. rewrite ltb_app. apply ltb_close; [exact F3|exact L].
  - inversion F2 as [|? ? G _]; subst. rewrite app_nil_l. change ((c2 :: b2) ++ extra_open ++ n2 ++ extra_close) with (c2 :: (b2 ++ extra_open ++ n2 ++ extra_close)).
    change (extra_open ++ n1 ++ extra_close) with ("%"%char :: (tail extra_open ++ n1 ++ extra_close)) at 1.
    cbn [str_ltb]. change (N_of_ascii "%") with 37%N.
    destruct (N.ltb_spec 37 (N_of_ascii c2)); [reflexivity|lia].
  - inversion F1 as [|? ? G _]; subst. change ((c :: b1) ++ s2l "/"%string ++ n1) with (c :: (b1 ++ s2l "/"%string ++ n1)) in L.
    change ([] ++ s2l "/"%string ++ n2) with ("/"%char :: n2) in L. cbn [str_ltb] in L. change (N_of_ascii "/") with 47%N in L.
    destruct (N.ltb_spec (N_of_ascii c) 47); [lia|].
    destruct (N.eqb_spec (N_of_ascii c) 47); [lia|discriminate].
  - inversion F1 as [|? ? _ G1]; subst. inversion F2 as [|? ? _ G2]; subst. cbn in L |- *.
    destruct (N_of_ascii c <? N_of_ascii c2)%N; [reflexivity|].
    destruct (N_of_ascii c =? N_of_ascii c2)%N; [exact (IH b2 n1 n2 G1 G2 F3 L)|discriminate].
Qed.

Lemma plain_ltb : forall verbs m1 m2, plain m1 -> plain m2 -> str_ltb (obj_id m1) (obj_id m2) = true ->
  str_ltb (meta_id verbs m1) (meta_id verbs m2) = true.
Proof.
  intros verbs m1 m2 [B1 N1] [B2 N2] L.
  assert (forall b, List.Forall (fun c => (47 < N_of_ascii c)%N) b -> existsb (fun c => (N_of_ascii c =? 37)%N) b = false) as X.
  { clear. intros b F. induction F as [|c b G F IH]; [reflexivity|]. cbn. rewrite IH.
    destruct (N.eqb_spec (N_of_ascii c) 37); [lia|reflexivity]. }
  unfold meta_id. rewrite (X _ B1), (X _ B2). apply ltb_objects; assumption.
Qed.

Lemma object_page : forall verbs srt servers bucket name page size all,
  sorts (meta_id verbs) srt -> keyed obj_id d_meta servers -> apart d_meta servers ->
  (forall d k m, d ∈ servers -> d_meta d !! k = Some m -> plain m) ->
  in_order obj_id d_meta servers (object_key bucket name) all ->
  1 <= page -> 1 <= size -> (Z.of_nat (page * size) <= 10000)%Z -> (Z.of_nat (length servers) <= 2 ^ 31)%Z ->
  exists t, metadata_paging srt servers bucket name (Z.of_nat page) (Z.of_nat size) = Page (page_of all size page) t /\
    (object_key bucket name = [] -> (page - 1) * size < length all -> t = length all).
Proof.
  intros verbs srt servers bucket name page size all Hs K P PL O Hp Hz Hm Hn.
  set (p := object_key bucket name) in *.
  unfold metadata_paging. fold p. rewrite cap_fine by first [exact Hn|exact Hm|nia].
  assert (forall x, x ∈ List.concat (map (full d_meta p) servers) -> plain x) as PX.
  { intros x I. apply elem_of_list_In, in_concat in I as (L & J & Y). apply in_map_iff in J as (d & <- & J).
    apply elem_of_list_In in Y, J. apply (full_in obj_id d_meta servers K p d x J) in Y as [Y _]. exact (PL d _ x J Y). }
  assert (forall l, (forall x : metadata, x ∈ l -> plain x) -> StronglySorted (fun x y => str_ltb (obj_id x) (obj_id y) = true) l ->
    StronglySorted (fun x y => str_ltb (meta_id verbs x) (meta_id verbs y) = true) l) as CS.
  { intros l. induction l as [|x l IH]; intros Q S; [constructor|]. inversion S as [|? ? S' F]; subst. constructor.
    - apply IH; [|exact S']. intros y Y. apply Q. apply elem_of_list_further, Y.
    - apply Forall_forall. intros y Y. rewrite Forall_forall in F. apply plain_ltb; [apply Q, elem_of_list_here|apply Q, elem_of_list_further, Y|exact (F y Y)]. }
  pose proof (in_order_concat obj_id d_meta p servers all K O) as M.
  assert (NoDup (meta_id verbs <$> List.concat (map (full d_meta p) servers))) as ND.
  { pose proof (concat_nodup obj_id d_meta p servers K P) as N. revert N PX. generalize (List.concat (map (full d_meta p) servers)) as l. clear.
    induction l as [|x l IH]; intros N Q; [constructor|]. cbn in *. apply NoDup_cons in N as [N1 N2]. apply NoDup_cons. split.
    - intros I. apply elem_of_list_fmap in I as (y & E & I). apply N1. apply elem_of_list_fmap. exists y. split; [|exact I].
      assert (plain x) as Px by (apply Q, elem_of_list_here). assert (plain y) as Py by (apply Q, elem_of_list_further, I).
      destruct (str_ltb_total (obj_id x) (obj_id y)) as [L|[L|L]]; [|exact L|].
      + pose proof (plain_ltb verbs x y Px Py L) as T. rewrite E, str_ltb_irrefl in T. discriminate.
      + pose proof (plain_ltb verbs y x Py Px L) as T. rewrite E, str_ltb_irrefl in T. discriminate.
    - apply IH; [exact N2|]. intros y Y. apply Q, elem_of_list_further, Y. }
  assert (take (page * size) (srt (List.concat (map (take (page * size)) (map (full d_meta p) servers)))) = take (page * size) all) as ET.
  { apply (page_merge (meta_id verbs)); [exact Hs| |exact ND| |exact M].
    - apply List.Forall_forall. intros L I. apply in_map_iff in I as (d & <- & I). apply elem_of_list_In in I. apply CS.
      + intros x X. apply (full_in obj_id d_meta servers K p d x I) in X as [X _]. exact (PL d _ x I X).
      + exact (full_sorted obj_id d_meta servers K p d I).
    - apply CS; [|exact (proj1 O)]. intros x X. apply PX, M, X. }
  assert (page_of all size page = page_of (srt (List.concat (map (take (page * size)) (map (full d_meta p) servers)))) size page) as E.
  { symmetry. apply page_cut; [exact Hp|exact ET]. }
  pose proof (concat_length_all obj_id d_meta p servers all K P O) as EL.
  rewrite E. clear E. destruct servers as [|d0 servers0].
  - cbn in EL. exists 0. split; [|intros _; lia]. cbn [map List.concat].
    destruct (Hs []) as [X _]. cbn in X. apply Permutation_nil_r in X. rewrite X. unfold page_of. rewrite skipn_nil, firstn_nil. reflexivity.
  - set (servers := d0 :: servers0) in *. clearbody servers. clear d0 servers0.
    rewrite int64_small by nia. replace (Z.of_nat page * Z.of_nat size)%Z with (Z.of_nat (page * size)) by lia.
    destruct (gather_objects p (page * size) servers) as (t & -> & T); [nia|exact Hm|].
    set (out := srt _) in *. destruct (slice_page out size page Hp Hz) as (st & ed & ok & -> & S & F & _).
    destruct ok.
    + rewrite S. exists t. split; [reflexivity|]. intros E _. rewrite (T E). symmetry. exact EL.
    + destruct (F eq_refl) as [-> Lo]. exists 0. split; [reflexivity|]. intros _ Lt. exfalso.
      apply (f_equal length) in ET. rewrite !take_length in ET. nia.
Qed.

(** ** The keys of the records *)

Lemma effect_bkt : forall d c d', effect d c d' ->
  (forall b, c <> CreateBucket b /\ c <> UpdateBucket b) -> (forall n, c <> DeleteBucket n) -> d_bkt d' = d_bkt d.
Proof.
  intros d c d' E. destruct E as [| | | | | | | | |c m H]; try reflexivity. intros H1 H2. exfalso.
  destruct H as [(b & [H|H])|(n & H)]; [exact (proj1 (H1 b) H)|exact (proj2 (H1 b) H)|exact (H2 n H)].
Qed.

Lemma slash_split : forall b1 b2 n1 n2 : str, List.Forall (fun x => x <> "/"%char) b1 -> List.Forall (fun x => x <> "/"%char) b2 ->
  b1 ++ s2l "/"%string ++ n1 = b2 ++ s2l "/"%string ++ n2 -> b1 = b2.
Proof.
  induction b1 as [|c b1 IH]; intros [|c2 b2] n1 n2 F1 F2 E; [reflexivity| | |].
  - inversion F2; subst. cbn in E. injection E as E _. congruence.
  - inversion F1; subst. cbn in E. injection E as E _. congruence.
  - inversion F1; inversion F2; subst. cbn in E. injection E as -> E. f_equal. exact (IH b2 n1 n2 ltac:(assumption) ltac:(assumption) E).
Qed.

Definition rec_ok (k : str) (m : metadata) : Prop := obj_id m = k /\ List.Forall (fun x => x <> "/"%char) (m_bucket m).

Lemma effect_meta : forall d c d' batch, effect d c d' -> own_key (HCmd (command batch c)) ->
  (forall k m, d_meta d !! k = Some m -> rec_ok k m) -> forall k m, d_meta d' !! k = Some m -> rec_ok k m.
Proof.
  intros d c d' batch E O K. destruct E as [|id m0 origin H L|id m0 H1 H2 H3|id m0 H| | | | | |c mm H]; intros k m G; try exact (K k m G).
  - cbn in G. apply lookup_insert_Some in G as [[<- <-]|[_ G]]; [|exact (K k m G)]. cbn in O. destruct O as [O1 O2].
    destruct (K id origin H) as [K1 K2]. split; [|exact K2]. unfold obj_id in *. cbn [keep_meta m_bucket m_name].
    rewrite (slash_split (m_bucket origin) (m_bucket m0) (m_name origin) (m_name m0) K2 O2) by congruence. symmetry. exact O1.
  - cbn in G. apply lookup_insert_Some in G as [[<- <-]|[_ G]]; [|exact (K k m G)]. cbn in O. destruct O as [O1 O2].
    split; [symmetry; exact O1|exact O2].
  - cbn in G. apply lookup_delete_Some in G as [_ G]. exact (K k m G).
Qed.

Lemma bkt_keyed_step : forall B d o, hop_ok B o -> (forall k b, d_bkt d !! k = Some b -> b_name b = k) ->
  forall k b, d_bkt (hstep d o) !! k = Some b -> b_name b = k.
Proof.
  intros B d [c|h|h i l now] O K.
  - destruct O as (batch & c0 & -> & _). cbn [hstep].
    destruct c0 as [id m|id|id m|id v|id v|id n|id n v|id|b0|name|b0];
      try (rewrite (effect_bkt d _ _ (dispatch_effect batch _ d)) by done; exact K).
    + cbn. unfold bkt_create. destruct (b_name b0) eqn:E; [exact K|]. rewrite <- E. destruct (d_bkt d !! b_name b0); [exact K|].
      cbn. intros k b G. apply lookup_insert_Some in G as [[<- <-]|[_ G]]; [reflexivity|exact (K k b G)].
    + cbn. intros k b G. apply lookup_delete_Some in G as [_ G]. exact (K k b G).
    + cbn. unfold bkt_update. destruct (b_name b0) eqn:E; [exact K|]. rewrite <- E. destruct (d_bkt d !! b_name b0); [|exact K].
      destruct (b_utime b0 <=? b_utime b)%Z; [exact K|].
      cbn. intros k b' G. apply lookup_insert_Some in G as [[<- <-]|[_ G]]; [reflexivity|exact (K k b' G)].
  - cbn. unfold find_by_hash. intros k b. rewrite (proj2 (proj2 (proj2 (find_loop_keeps _ _ _)))). exact (K k b).
  - cbn. apply (locate_ind (fun d => forall k b, d_bkt d !! k = Some b -> b_name b = k)); [|exact K].
    intros d0 id n v d' K0 E. rewrite (effect_bkt d0 _ _ E) by done. exact K0.
Qed.

Lemma bkt_keyed : forall B ops, List.Forall (hop_ok B) ops ->
  forall k b, d_bkt (hrun db_empty ops) !! k = Some b -> b_name b = k.
Proof.
  intros B ops. assert (forall k b, d_bkt db_empty !! k = Some b -> b_name b = k) as K.
  { intros k b G. cbn in G. rewrite lookup_empty in G. discriminate. }
  revert K. generalize db_empty as d. induction ops as [|o ops IH]; intros d K F; [exact K|].
  inversion F as [|? ? F1 F2]; subst. cbn [hrun fold_left]. apply IH; [|exact F2]. exact (bkt_keyed_step B d o F1 K).
Qed.

Lemma meta_keyed : forall B ops, List.Forall (hop_ok B) ops -> List.Forall own_key ops ->
  forall k m, d_meta (hrun db_empty ops) !! k = Some m -> rec_ok k m.
Proof.
  intros B ops. assert (forall k m, d_meta db_empty !! k = Some m -> rec_ok k m) as K.
  { intros k b G. cbn in G. rewrite lookup_empty in G. discriminate. }
  revert K. generalize db_empty as d. induction ops as [|o ops IH]; intros d K F W; [exact K|].
  inversion F as [|? ? F1 F2]; subst. inversion W as [|? ? W1 W2]; subst. cbn [hrun fold_left]. apply IH; [|exact F2|exact W2].
  destruct o as [c|h|h i l now].
  - destruct F1 as (batch & c0 & -> & _). exact (effect_meta d c0 _ batch (dispatch_effect batch c0 d) W1 K).
  - cbn. unfold find_by_hash. intros k m. rewrite (proj1 (proj2 (find_loop_keeps _ _ _))). exact (K k m).
  - cbn. apply (locate_ind (fun d => forall k m, d_meta d !! k = Some m -> rec_ok k m)); [|exact K].
    intros d0 id n v d' K0 E. exact (effect_meta d0 _ _ true E I K0).
Qed.

(** ** Totals *)

Lemma keys_total : forall {A} (f : db -> gmap str A) servers (ids : list str), apart f servers -> NoDup ids ->
  (forall k, k ∈ ids <-> exists d, d ∈ servers /\ is_Some (f d !! k)) ->
  length ids = length (List.concat (map (full f []) servers)).
Proof.
  intros A f servers ids P N M.
  transitivity (length (List.concat (map (fun d => matching [] (f d)) servers))).
  - apply Permutation_length. apply NoDup_Permutation; [exact N| |].
    + clear M N. induction servers as [|d servers IH]; [constructor|]. cbn. apply NoDup_app. split; [|split].
      * pose proof (lt_sorted_nodup (fun k : str => k) (matching [] (f d)) (matching_sorted [] (f d))) as X.
        rewrite list_fmap_id in X. exact X.
      * intros k I J. apply matching_in in I as [I _]. apply elem_of_list_In, in_concat in J as (L & J & Y).
        apply in_map_iff in J as (d2 & <- & J). apply elem_of_list_In in Y, J. apply matching_in in Y as [Y _].
        apply elem_of_list_lookup in J as [j J]. specialize (P 0 (S j) d d2 k eq_refl J I Y). discriminate.
      * apply IH. intros i j d1 d2 k E1 E2 S1 S2. specialize (P (S i) (S j) d1 d2 k E1 E2 S1 S2). lia.
    + intros k. rewrite M, elem_of_list_In, in_concat. split.
      * intros (d & I & E). exists (matching [] (f d)). split; [apply in_map_iff; exists d; split; [reflexivity|apply elem_of_list_In, I]|].
        apply elem_of_list_In. apply matching_in. split; [exact E|exists k; reflexivity].
      * intros (L & J & Y). apply in_map_iff in J as (d & <- & J). apply elem_of_list_In in Y, J. exists d. split; [exact J|].
        apply matching_in in Y as [Y _]. exact Y.
  - clear. induction servers as [|d s IH]; [reflexivity|]. cbn. rewrite !app_length, full_length, IH. reflexivity.
Qed.
