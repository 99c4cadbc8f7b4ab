(** Properties of the admin server's listings of objects and buckets (C74, C75). *)
From Verif Require Import Str_Model Str_Proofs Meta_Model Meta_Spec Util_Model Util_Spec Util_Proofs Admin_Model Admin_Spec Admin_Proofs.
From stdpp Require Import gmap sorting.
From Coq Require Import Lia.
Local Open Scope list_scope.

(** The masters after any histories of commands. *)
Definition masters (hs : list (list hop)) : list db := map (hrun db_empty) hs.
Definition lawful (B : N) (hs : list (list hop)) : Prop := List.Forall (List.Forall (hop_ok B)) hs.

Lemma masters_buckets : forall B hs, lawful B hs -> keyed b_name d_bkt (masters hs).
Proof.
  intros B hs L d k b I E. apply elem_of_list_In, in_map_iff in I as (ops & <- & I). unfold lawful in L.
  rewrite List.Forall_forall in L. exact (bkt_keyed B ops (L ops I) k b E).
Qed.
Lemma masters_objects : forall B hs, lawful B hs -> List.Forall (List.Forall own_key) hs -> keyed obj_id d_meta (masters hs).
Proof.
  intros B hs L W d k b I E. apply elem_of_list_In, in_map_iff in I as (ops & <- & I). unfold lawful in L.
  rewrite List.Forall_forall in L, W. exact (proj1 (meta_keyed B ops (L ops I) (W ops I) k b E)).
Qed.

Lemma ssort_sorts : forall {A} (key : A -> str), sorts key (ssort key).
Proof.
  intros A key l. assert (forall x l, Permutation (sinsert key x l) (x :: l)) as P.
  { intros x. induction l0 as [|y l0 IH]; cbn; [reflexivity|]. destruct (str_ltb (key x) (key y)); [reflexivity|].
    rewrite IH. apply perm_swap. }
  induction l as [|x l [IH1 IH2]]; cbn; [split; [reflexivity|constructor]|]. split.
  - rewrite P. rewrite IH1. reflexivity.
  - clear IH1. fold (ssort key l) in *. induction IH2 as [|y l0 S IH F]; cbn; [repeat constructor|].
    destruct (str_ltb (key x) (key y)) eqn:E.
    + constructor; [constructor; assumption|]. constructor.
      * destruct (str_ltb (key y) (key x)) eqn:E2; [|reflexivity].
        pose proof (str_ltb_trans _ _ _ E E2) as T. rewrite str_ltb_irrefl in T. discriminate.
      * apply Forall_forall. intros z Z. rewrite Forall_forall in F. specialize (F z Z). cbn in F.
        destruct (str_ltb (key z) (key x)) eqn:E2; [|reflexivity].
        rewrite (str_ltb_trans _ _ _ E2 E) in F. discriminate.
    + constructor; [exact IH|]. apply Forall_forall. intros z Z. rewrite P in Z. apply elem_of_cons in Z as [->|Z]; [exact E|].
      rewrite Forall_forall in F. exact (F z Z).
Qed.

(** The list the theorems speak of always exists. *)
Lemma in_order_exists : forall {A} (key : A -> str) f servers p, keyed key f servers -> apart f servers ->
  exists all, in_order key f servers p all.
Proof.
  intros A key f servers p K P. exists (ssort key (List.concat (map (full f p) servers))).
  destruct (ssort_sorts key (List.concat (map (full f p) servers))) as [Pm W]. split.
  - apply weak_sorted_strict; [|exact W]. rewrite Pm. exact (concat_nodup key f p servers K P).
  - intros x. rewrite Pm, elem_of_list_In, in_concat. split.
    + intros (L & J & Y). apply in_map_iff in J as (d & <- & J). apply elem_of_list_In in Y, J.
      exists d. split; [exact J|]. apply (full_in key f servers K p d x J). exact Y.
    + intros (d & I & E & T). exists (full f p d). split; [apply in_map, elem_of_list_In, I|].
      apply elem_of_list_In. apply (full_in key f servers K p d x I). split; [exact E|exact T].
Qed.

Lemma apart_two : forall {A} (f : db -> gmap str A) d1 d2,
  bool_decide (Forall (fun k => k ∉ Meta_List.matching [] (f d2)) (Meta_List.matching [] (f d1))) = true -> apart f [d1; d2].
Proof.
  intros A f d1 d2 H. apply bool_decide_eq_true in H. rewrite Forall_forall in H.
  assert (forall k, is_Some (f d1 !! k) -> is_Some (f d2 !! k) -> False) as G.
  { intros k S1 S2. apply (H k); apply Meta_List.matching_in; (split; [assumption|exists k; reflexivity]). }
  intros i j e1 e2 k E1 E2 S1 S2. destruct i as [|[|i]], j as [|[|j]]; try discriminate; try reflexivity;
    injection E1 as <-; injection E2 as <-; exfalso; exact (G k ltac:(assumption) ltac:(assumption)).
Qed.

(** * C74 *)

(** Full statement: page [k] of a listing is the [k]th page of all that the servers hold
    under keys starting with what was asked for, in order:
[forall srt servers p page size all, in_order key f servers p all ->
  exists t, paging srt servers p page size = Page (page_of all size page) t].
    Missing: pages that end after the first 10000, and for objects buckets and names
    that sort differently by [Metadata.ID]. *)
Theorem C74_buckets_partial : forall srt B hs p page size all, sorts b_name srt -> lawful B hs ->
  apart d_bkt (masters hs) -> in_order b_name d_bkt (masters hs) p all ->
  1 <= page -> 1 <= size -> (Z.of_nat (page * size) <= 10000)%Z -> (Z.of_nat (length hs) <= 2 ^ 31)%Z ->
  exists t, bucket_paging srt (masters hs) p (Z.of_nat page) (Z.of_nat size) = Page (page_of all size page) t.
Proof.
  intros srt B hs p page size all S L P O H1 H2 H3 H4.
  destruct (bucket_page srt (masters hs) p page size all S (masters_buckets B hs L) P O H1 H2 H3) as (t & E & _).
  - unfold masters. rewrite map_length. exact H4.
  - exists t. exact E.
Qed.
Print Assumptions C74_buckets_partial.

(** Partial; the full statement is at [C74_buckets_partial]. *)
Theorem C74_objects_partial : forall verbs srt B hs bucket name page size all, sorts (meta_id verbs) srt -> lawful B hs ->
  List.Forall (List.Forall own_key) hs -> apart d_meta (masters hs) ->
  (forall d k m, d ∈ masters hs -> d_meta d !! k = Some m -> plain m) ->
  in_order obj_id d_meta (masters hs) (object_key bucket name) all ->
  1 <= page -> 1 <= size -> (Z.of_nat (page * size) <= 10000)%Z -> (Z.of_nat (length hs) <= 2 ^ 31)%Z ->
  exists t, metadata_paging srt (masters hs) bucket name (Z.of_nat page) (Z.of_nat size) = Page (page_of all size page) t.
Proof.
  intros verbs srt B hs bucket name page size all S L W P Q O H1 H2 H3 H4.
  destruct (object_page verbs srt (masters hs) bucket name page size all S (masters_objects B hs L W) P Q O H1 H2 H3) as (t & E & _).
  - unfold masters. rewrite map_length. exact H4.
  - exists t. exact E.
Qed.
Print Assumptions C74_objects_partial.

(** So the pages together are everything, once (C12). *)
(** Partial; the full statement is at [C74_buckets_partial]. *)
Theorem C74_cover_partial : forall srt B hs p size n all, sorts b_name srt -> lawful B hs ->
  apart d_bkt (masters hs) -> in_order b_name d_bkt (masters hs) p all ->
  1 <= size -> length all <= n * size -> (Z.of_nat (n * size) <= 10000)%Z -> (Z.of_nat (length hs) <= 2 ^ 31)%Z ->
  List.concat (map (fun k => match bucket_paging srt (masters hs) p (Z.of_nat k) (Z.of_nat size) with
                             | Page l _ => l | _ => [] end) (seq 1 n)) = all.
Proof.
  intros srt B hs p size n all S L P O H2 HL H3 H4.
  rewrite <- (pages_concat bucket size n all H2 HL) at 1. f_equal. apply map_ext_in. intros k I. apply in_seq in I.
  destruct (C74_buckets_partial srt B hs p k size all S L P O) as (t & ->); [lia|exact H2|nia|exact H4|reflexivity].
Qed.
Print Assumptions C74_cover_partial.

Definition vb : str -> str -> str := fun b _ => b.
Definition obj (b n : string) : metadata := mk_metadata (s2l n) (s2l b) 1 1.
Definition bkt (n : string) : bucket := mk_bucket true false false 1 4 2 3 5 1 (s2l n) [].
Definition add (m : metadata) : hop := HCmd (command true (AddMetadata (obj_id m) m)).
Definition addb (b : bucket) : hop := HCmd (command true (CreateBucket b)).
Definition hs1 : list (list hop) :=
  [[add (obj "b" "x.1"); add (obj "c" "a"); addb (bkt "b"); addb (bkt "d")];
   [add (obj "b" "x"); add (obj "bb" "a/b"); addb (bkt "c")]].

Example C74_case :
  bucket_paging (ssort b_name) (masters hs1) [] 1 2 = Page [bkt "b"; bkt "c"] 3 /\
  bucket_paging (ssort b_name) (masters hs1) [] 2 2 = Page [bkt "d"] 3 /\
  metadata_paging (ssort (meta_id vb)) (masters hs1) [] [] 2 2 = Page [obj "bb" "a/b"; obj "c" "a"] 4 /\
  metadata_paging (ssort (meta_id vb)) (masters hs1) (s2l "b"%string) [] 1 2 = Page [obj "b" "x"; obj "b" "x.1"] 2.
Proof. repeat split; vm_compute; reflexivity. Qed.

Example C74_case_hyps : apart d_meta (masters hs1) /\ apart d_bkt (masters hs1) /\ lawful 5 hs1 /\ List.Forall (List.Forall own_key) hs1 /\
  List.Forall plain [obj "b" "x.1"; obj "c" "a"; obj "b" "x"; obj "bb" "a/b"].
Proof.
  split; [apply apart_two; vm_compute; reflexivity|]. split; [apply apart_two; vm_compute; reflexivity|]. split; [|split].
  - unfold lawful, hs1. repeat (constructor; try (eexists true, _; split; [reflexivity|exact I])).
  - unfold hs1. repeat (constructor; try exact I); try discriminate.
  - repeat (constructor; try reflexivity).
Qed.

(** One server, two objects in the buckets "b" and "b-c", pages of one: both pages show
    the same object, the other is on none.  The same for the names "a" and "a(1)". *)
Theorem C74_objects_refuted :
  (let hs := [[add (obj "b" "x"); add (obj "b-c" "x")]] in
   metadata_paging (ssort (meta_id vb)) (masters hs) [] [] 1 1 = Page [obj "b-c" "x"] 2 /\
   metadata_paging (ssort (meta_id vb)) (masters hs) [] [] 2 1 = Page [obj "b-c" "x"] 2 /\
   metadata_paging (ssort (meta_id vb)) (masters hs) [] [] 3 1 = Page [] 0) /\
  (let hs := [[add (obj "b" "a"); add (obj "b" "a(1)")]] in
   metadata_paging (ssort (meta_id vb)) (masters hs) [] [] 1 1 = Page [obj "b" "a"] 2 /\
   metadata_paging (ssort (meta_id vb)) (masters hs) [] [] 2 1 = Page [obj "b" "a"] 2).
Proof. repeat split; vm_compute; reflexivity. Qed.
Print Assumptions C74_objects_refuted.

(** A page that ends after the first 10000 fails, whatever is stored. *)
Theorem C74_deep_refuted : forall srt srtb hs bucket name page size, hs <> [] -> (Z.of_nat (length hs) <= 2 ^ 31)%Z ->
  (10000 < page * size <= 2 ^ 13 * 2)%Z -> (0 < page)%Z ->
  metadata_paging srt (masters hs) bucket name page size = Failed /\
  bucket_paging srtb (masters hs) name page size = Failed.
Proof.
  intros srt srtb hs bucket name page size N L H P.
  assert (bad_cap (length (masters hs)) page size = false) as B.
  { unfold bad_cap, masters. rewrite map_length. cbv zeta. rewrite <- Z.mul_assoc. 
    assert (Z.of_nat (length hs) * (page * size) <= 2 ^ 31 * (2 ^ 13 * 2))%Z by nia.
    rewrite int64_small by nia. lia. }
  unfold metadata_paging, bucket_paging. rewrite B. rewrite int64_small by lia.
  unfold masters. destruct hs as [|h hs]; [contradiction|]. cbn [map gather]. unfold ask_objects, ask_buckets.
  destruct (Z.ltb_spec 10000 (page * size)); [|lia]. rewrite !orb_true_r. split; reflexivity.
Qed.
Print Assumptions C74_deep_refuted.

(** A name without a bucket is looked for at the beginning of the bucket's name. *)
Theorem C74_name_refuted :
  metadata_paging (ssort (meta_id vb)) (masters [[add (obj "b" "x")]]) [] (s2l "x"%string) 1 10 = Page [] 0 /\
  metadata_paging (ssort (meta_id vb)) (masters [[add (obj "xy" "z")]]) [] (s2l "x"%string) 1 10 = Page [obj "xy" "z"] 1.
Proof. split; vm_compute; reflexivity. Qed.
Print Assumptions C74_name_refuted.

(** * C75 *)

(** Full statement: the total of every page is the number of matching entries.
[forall srt servers p page size all, in_order key f servers p all ->
  exists l, paging srt servers p page size = Page l (length all)].
    Missing: with a prefix; for objects a page after the last. *)
Theorem C75_buckets_partial : forall srt B hs page size all, sorts b_name srt -> lawful B hs ->
  apart d_bkt (masters hs) -> in_order b_name d_bkt (masters hs) [] all ->
  1 <= page -> 1 <= size -> (Z.of_nat (page * size) <= 10000)%Z -> (Z.of_nat (length hs) <= 2 ^ 31)%Z ->
  bucket_paging srt (masters hs) [] (Z.of_nat page) (Z.of_nat size) = Page (page_of all size page) (length all).
Proof.
  intros srt B hs page size all S L P O H1 H2 H3 H4.
  destruct (bucket_page srt (masters hs) [] page size all S (masters_buckets B hs L) P O H1 H2 H3) as (t & E & T).
  - unfold masters. rewrite map_length. exact H4.
  - rewrite E, (T eq_refl). reflexivity.
Qed.
Print Assumptions C75_buckets_partial.

(** Partial; the full statement is at [C75_buckets_partial]. *)
Theorem C75_objects_partial : forall verbs srt B hs page size all, sorts (meta_id verbs) srt -> lawful B hs ->
  List.Forall (List.Forall own_key) hs -> apart d_meta (masters hs) ->
  (forall d k m, d ∈ masters hs -> d_meta d !! k = Some m -> plain m) ->
  in_order obj_id d_meta (masters hs) [] all -> (page - 1) * size < length all ->
  1 <= page -> 1 <= size -> (Z.of_nat (page * size) <= 10000)%Z -> (Z.of_nat (length hs) <= 2 ^ 31)%Z ->
  metadata_paging srt (masters hs) [] [] (Z.of_nat page) (Z.of_nat size) = Page (page_of all size page) (length all).
Proof.
  intros verbs srt B hs page size all S L W P Q O HL H1 H2 H3 H4.
  destruct (object_page verbs srt (masters hs) [] [] page size all S (masters_objects B hs L W) P Q O H1 H2 H3) as (t & E & T).
  - unfold masters. rewrite map_length. exact H4.
  - rewrite E, (T eq_refl HL). reflexivity.
Qed.
Print Assumptions C75_objects_partial.

(** The numbers on the overview are right, whatever the buckets and names: [ids] is the
    keys of all servers, each once. *)
Theorem C75_totals : forall (ids : list str) hs (srt : list metadata -> list metadata) (srtb : list bucket -> list bucket),
  (forall l, Permutation (srt l) l) -> (forall l, Permutation (srtb l) l) -> (Z.of_nat (length hs) <= 2 ^ 31)%Z -> NoDup ids ->
  (apart d_meta (masters hs) -> (forall k, k ∈ ids <-> exists d, d ∈ masters hs /\ is_Some (d_meta d !! k)) ->
   total_objects srt (masters hs) = Some (length ids)) /\
  (apart d_bkt (masters hs) -> (forall k, k ∈ ids <-> exists d, d ∈ masters hs /\ is_Some (d_bkt d !! k)) ->
   total_buckets srtb (masters hs) = Some (length ids)).
Proof.
  intros ids hs srt srtb Ps Pb HL ND. unfold masters in *. assert (length (map (hrun db_empty) hs) = length hs) as EL by apply map_length.
  revert EL. generalize (map (hrun db_empty) hs) as servers. intros servers EL. rewrite <- EL in HL. clear EL. split; intros P M.
  - rewrite (keys_total d_meta servers ids P ND M). unfold total_objects, metadata_paging.
    change 1%Z with (Z.of_nat 1). rewrite cap_fine by (first [exact HL|cbn; lia]).
    destruct servers as [|d0 servers0]; [reflexivity|]. set (servers := d0 :: servers0) in *.
    change (int64 (Z.of_nat 1 * Z.of_nat 1)) with (Z.of_nat 1).
    change (object_key [] []) with ([] : str).
    destruct (gather_objects [] 1 servers) as (t & -> & T); [lia|lia|]. cbv zeta. rewrite (T eq_refl). clear T.
    set (l := List.concat (map (take 1) _)). assert (length (srt l) = 0 -> length (List.concat (map (full d_meta []) servers)) = 0) as Z0.
    { rewrite (Ps l). unfold l. clear. induction servers as [|d s IH]; [done|]. cbn [map List.concat]. rewrite !app_length.
      destruct (full d_meta [] d); cbn; lia. }
    destruct (slice_page (srt l) 1 1) as (st & ed & ok & -> & S & F & _); [lia|lia|]. destruct ok; [rewrite S; reflexivity|].
    destruct (F eq_refl) as [_ F']. cbn in F'. rewrite Z0 by lia. reflexivity.
  - rewrite (keys_total d_bkt servers ids P ND M). unfold total_buckets, bucket_paging.
    change 1%Z with (Z.of_nat 1). rewrite cap_fine by (first [exact HL|cbn; lia]).
    destruct servers as [|d0 servers0]; [reflexivity|]. set (servers := d0 :: servers0) in *.
    change (int64 (Z.of_nat 1 * Z.of_nat 1)) with (Z.of_nat 1).
    destruct (gather_buckets [] 1 servers) as (t & -> & T); [lia|lia|]. cbv zeta.
    rewrite (T eq_refl). set (l := List.concat (map (take 1) _)).
    destruct (slice_page (srtb l) 1 1) as (st & ed & ok & -> & S & F & _); [lia|lia|]. rewrite S. reflexivity.
Qed.
Print Assumptions C75_totals.

Example C75_totals_case : total_objects (ssort (meta_id vb)) (masters hs1) = Some 4 /\ total_buckets (ssort b_name) (masters hs1) = Some 3.
Proof. split; vm_compute; reflexivity. Qed.

(** With a prefix the total is what was fetched so far: on page 1 of pages of one object
    it says 1 though there are 3; after the last page it is 0. *)
Theorem C75_total_refuted :
  let hs := [[add (obj "b" "x"); add (obj "b" "y"); add (obj "b" "z"); addb (bkt "b1"); addb (bkt "b2"); addb (bkt "b3")]] in
  metadata_paging (ssort (meta_id vb)) (masters hs) (s2l "b"%string) [] 1 1 = Page [obj "b" "x"] 1 /\
  metadata_paging (ssort (meta_id vb)) (masters hs) (s2l "b"%string) [] 2 1 = Page [obj "b" "y"] 2 /\
  bucket_paging (ssort b_name) (masters hs) (s2l "b"%string) 1 1 = Page [bkt "b1"] 1 /\
  metadata_paging (ssort (meta_id vb)) (masters hs) [] [] 2 3 = Page [] 0.
Proof. repeat split; vm_compute; reflexivity. Qed.
Print Assumptions C75_total_refuted.
