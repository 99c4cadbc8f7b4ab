(** Proofs about histories of the metadata store: number growth, indexes, stale
    updates, log replay. *)
From Verif Require Import Str_Model Str_Proofs Meta_Model Meta_Spec Meta_Proofs.
From stdpp Require Import gmap sorting.
Local Arguments N.pow : simpl never.
Local Arguments N.modulo : simpl never.
Local Arguments N.add : simpl never.
Local Arguments N.max : simpl never.

(** ** Key texts *)

Lemma to_int_print : forall n, (n < 2 ^ 63)%N -> to_int (print_N n) = Z.of_N n.
Proof.
  intros n H. unfold to_int. rewrite parse_print_N. apply Z.min_l.
  unfold int64_max. change (2 ^ 63)%N with (Z.to_N (2 ^ 63)) in H. lia.
Qed.

Lemma to_uint64_print : forall n, (n < 2 ^ 64)%N -> to_uint64 (print_N n) = n.
Proof.
  intros n H. unfold to_uint64. rewrite parse_print_N. destruct (N.ltb_spec n (2 ^ 64)); [done|lia].
Qed.

(** ** Sorting of keys *)

Lemma kinsert_perm : forall k l, kinsert k l ≡ₚ k :: l.
Proof.
  intros k; induction l as [|x l IH]; cbn; [done|].
  destruct (str_ltb k x); [done|]. rewrite IH. by constructor.
Qed.

Lemma ksort_perm : forall l, ksort l ≡ₚ l.
Proof.
  induction l as [|x l IH]; [done|]. cbn. by rewrite kinsert_perm, IH.
Qed.

Definition klt (a b : str) : Prop := str_ltb a b = true.

Lemma kinsert_sorted : forall k l, k ∉ l -> StronglySorted klt l -> StronglySorted klt (kinsert k l).
Proof.
  intros k; induction l as [|x l IH]; intros Hk Hs; cbn.
  - by repeat constructor.
  - apply StronglySorted_inv in Hs as [Hs Hx]. apply not_elem_of_cons in Hk as [Hkx Hk].
    destruct (str_ltb k x) eqn:E.
    + constructor; [by constructor|]. constructor; [done|].
      eapply Forall_impl; [exact Hx|]. intros y Hy. by eapply str_ltb_trans.
    + constructor; [by apply IH|]. rewrite kinsert_perm. constructor; [|done].
      destruct (str_ltb_total k x) as [?|[?|?]]; congruence.
Qed.

Lemma ksort_sorted : forall l, NoDup l -> StronglySorted klt (ksort l).
Proof.
  induction l as [|x l IH]; intros H; [constructor|]. apply NoDup_cons in H as [Hx H].
  cbn. apply kinsert_sorted; [|by apply IH]. by rewrite ksort_perm.
Qed.

Lemma keys_in : forall {A} (m : gmap str A) k, k ∈ keys m <-> is_Some (m !! k).
Proof.
  intros A m k. unfold keys. rewrite ksort_perm, elem_of_list_fmap. split.
  - intros ([k' v] & -> & H). apply elem_of_map_to_list in H. by exists v.
  - intros [v H]. exists (k, v). split; [done|]. by apply elem_of_map_to_list.
Qed.

Lemma keys_sorted : forall {A} (m : gmap str A), StronglySorted klt (keys m).
Proof. intros A m. apply ksort_sorted. apply NoDup_fst_map_to_list. Qed.

Lemma sorted_last : forall l k, StronglySorted klt l -> last l = Some k ->
  k ∈ l /\ forall x, x ∈ l -> x = k \/ klt x k.
Proof.
  induction l as [|y l IH]; intros k Hs Hl; [done|]. apply StronglySorted_inv in Hs as [Hs Hy].
  destruct l as [|z l].
  - injection Hl as ->. split; [by constructor|]. intros x Hx. left. by apply elem_of_list_singleton in Hx.
  - change (last (y :: z :: l)) with (last (z :: l)) in Hl. destruct (IH k Hs Hl) as [Hin Hmax].
    split; [by constructor|]. intros x Hx. apply elem_of_cons in Hx as [->|Hx].
    + right. rewrite Forall_forall in Hy. by apply Hy.
    + by apply Hmax.
Qed.

Lemma sorted_head : forall l k, StronglySorted klt l -> head l = Some k ->
  k ∈ l /\ forall x, x ∈ l -> x = k \/ klt k x.
Proof.
  intros [|y l] k Hs Hl; [done|]. injection Hl as ->. apply StronglySorted_inv in Hs as [Hs Hy].
  split; [by constructor|]. intros x Hx. apply elem_of_cons in Hx as [->|Hx]; [by left|].
  right. rewrite Forall_forall in Hy. by apply Hy.
Qed.

Lemma last_none : forall {A} (l : list A), last l = None -> l = [].
Proof. intros A. induction l as [|x l IH]; [done|]. destruct l; [done|]. intros H. by apply IH in H. Qed.

(** ** Operations other than calls *)

Lemma find_loop_keeps : forall h ks d,
  d_vers (fst (find_loop h ks d)) = d_vers d /\ d_meta (fst (find_loop h ks d)) = d_meta d /\
  d_uid (fst (find_loop h ks d)) = d_uid d /\ d_bkt (fst (find_loop h ks d)) = d_bkt d.
Proof.
  intros h. induction ks as [|k ks IH]; intros d; cbn [find_loop]; [done|].
  destruct (cut_last _ k) as [[name t]|]; [|done].
  destruct (service_get_version _ _ _).
  - specialize (IH d). destruct (find_loop h ks d). done.
  - specialize (IH (with_hash (idx_remove h k (d_hash d)) d)). done.
Qed.

Lemma update_ver_effect : forall id v d d', update_ver id v d = inl d' ->
  effect d (UpdateVersion id (v_seq v) v) d'.
Proof.
  intros id v d d' H. unfold update_ver in H. destruct (d_vers d !! id) eqn:E; [|done].
  destruct (vb_map _ !! _) eqn:K; [|done]. destruct (Z.leb_spec (v_ts v) (v_ts v1)); [done|].
  injection H as <-. by apply ef_upd.
Qed.

Lemma locate_ind : forall (P : db -> Prop),
  (forall d id n v d', P d -> effect d (UpdateVersion id n v) d' -> P d') ->
  forall h i l now d, P d -> P (fst (update_locate_by_hash h i l now d)).
Proof.
  intros P HP h i l now d Hd. unfold update_locate_by_hash.
  assert (forall ks d0, P d0 -> forall d', update_locate_loop i l now ks d0 = inl d' -> P d') as L.
  { induction ks as [|k ks IH]; intros d0 H0 d' H; cbn in H; [by injection H as <-|].
    destruct (cut_last _ k) as [[name t]|]; [|done]. destruct (get_ver _ _ _); [|done].
    destruct (set_locate _ _ _) as [v'|]; [|done]. destruct (update_ver name v' d0) eqn:U; [|done].
    eapply IH; [|exact H]. eapply HP; [exact H0|]. by eapply update_ver_effect. }
  destruct (update_locate_loop _ _ _ _ _) eqn:E; cbn; [|done]. by eapply L.
Qed.

(** ** Numbers *)

Definition inv (K : N) (d : db) : Prop := forall id b, d_vers d !! id = Some b ->
  (vb_seq b <= K)%N /\
  forall k v, vb_map b !! k = Some v -> k = vkey id (v_seq v) /\ (1 <= v_seq v <= vb_seq b)%N.

Lemma inv_empty : forall K, inv K db_empty.
Proof. intros K id b H. done. Qed.

Lemma next_seq_lt : forall b, (vb_seq b + 1 < 2 ^ 64)%N -> next_seq b = (vb_seq b + 1)%N.
Proof. intros b H. unfold next_seq. by apply N.mod_small. Qed.

Lemma inv_effect : forall B K d c d', inv K d -> effect d c d' ->
  (forall id v, c = MigrateVersion id v -> (1 <= v_seq v <= B)%N) ->
  (B <= K)%N -> (K + 1 < 2 ^ 64)%N -> inv (K + 1) d'.
Proof.
  intros B K d c d' I E Hm HB HK.
  assert (forall id b, d_vers d !! id = Some b -> next_seq b = (vb_seq b + 1)%N) as NS.
  { intros id b H. apply I in H as [H _]. apply next_seq_lt. lia. }
  assert (inv (K + 1) d) as I'.
  { intros id b H. apply I in H as [H1 H2]. split; [lia|done]. }
  destruct E as [c|id m o Hm0|id m Hn Hv|id m Hm0|id v b hi ui Hb Hu Hk|id v b hi ui Hb Hu Hk|id n b v Hb Hk
    |id n v b o Hb Hk Ht|id b Hb|c m Hc]; try exact I'; intros id' b' H'; cbn in H'.
  - destruct (decide (id = id')) as [<-|N].
    + rewrite lookup_insert in H'. injection H' as <-. cbn. split; [lia|]. intros k v Hv'. done.
    + rewrite lookup_insert_ne in H' by done. by apply I'.
  - apply lookup_delete_Some in H' as [_ H']. by apply I'.
  - destruct (decide (id = id')) as [<-|N].
    + rewrite lookup_insert in H'. injection H' as <-. cbn. rewrite (NS _ _ Hb) in *. destruct (I _ _ Hb) as [I1 I2].
      split; [lia|]. intros k v' Hv'. apply lookup_insert_Some in Hv' as [[<- <-]|[_ Hv']].
      * cbn. split; [done|lia].
      * apply I2 in Hv' as [-> ?]. split; [done|lia].
    + rewrite lookup_insert_ne in H' by done. by apply I'.
  - destruct (decide (id = id')) as [<-|N].
    + rewrite lookup_insert in H'. injection H' as <-. cbn. destruct (I _ _ Hb) as [I1 I2].
      specialize (Hm _ _ eq_refl). split; [lia|]. intros k v' Hv'.
      apply lookup_insert_Some in Hv' as [[<- <-]|[_ Hv']].
      * split; [done|lia].
      * apply I2 in Hv' as [-> ?]. split; [done|lia].
    + rewrite lookup_insert_ne in H' by done. by apply I'.
  - destruct (decide (id = id')) as [<-|N].
    + rewrite lookup_insert in H'. injection H' as <-. cbn. destruct (I _ _ Hb) as [I1 I2].
      split; [lia|]. intros k v' Hv'. apply lookup_delete_Some in Hv' as [_ Hv']. by apply I2.
    + rewrite lookup_insert_ne in H' by done. by apply I'.
  - destruct (decide (id = id')) as [<-|N].
    + rewrite lookup_insert in H'. injection H' as <-. cbn. destruct (I _ _ Hb) as [I1 I2].
      split; [lia|]. intros k v' Hv'. apply lookup_insert_Some in Hv' as [[<- <-]|[_ Hv']].
      * apply I2 in Hk as [Hk ?]. cbn. done.
      * by apply I2.
    + rewrite lookup_insert_ne in H' by done. by apply I'.
  - destruct (decide (id = id')) as [<-|N].
    + rewrite lookup_insert in H'. injection H' as <-. cbn. split; [lia|]. intros k v' Hv'. done.
    + rewrite lookup_insert_ne in H' by done. by apply I'.
Qed.

Lemma inv_weaken : forall K K' d, (K <= K')%N -> inv K d -> inv K' d.
Proof. intros K K' d H I id b Hb. apply I in Hb as [? ?]. split; [lia|done]. Qed.

Lemma inv_upd : forall K d id n v d', inv K d -> effect d (UpdateVersion id n v) d' -> inv K d'.
Proof.
  intros K d id n v d' I E. inversion E as [| | | | | | |id0 n0 v0 b o Hb Hk Ht| |c m Hc]; subst; [done| |].
  - intros id' b' H'. cbn in H'. destruct (decide (id = id')) as [<-|N].
    + rewrite lookup_insert in H'. injection H' as <-. cbn. destruct (I _ _ Hb) as [I1 I2].
      split; [lia|]. intros k v' Hv'. apply lookup_insert_Some in Hv' as [[<- <-]|[_ Hv']].
      * apply I2 in Hk as [Hk ?]. cbn. done.
      * by apply I2.
    + rewrite lookup_insert_ne in H' by done. by apply I.
  - intros id' b'. apply I.
Qed.

Lemma inv_hstep : forall B K d o, inv K d -> hop_ok B o -> (B <= K)%N -> (K + 1 < 2 ^ 64)%N ->
  inv (K + 1) (hstep d o).
Proof.
  intros B K d [c|h|h i l now] I O HB HK.
  - destruct O as (batch & c0 & -> & Hc). cbn. eapply inv_effect; [done|apply dispatch_effect| |done|done].
    intros id v ->. done.
  - cbn. unfold find_by_hash. intros id b. rewrite (proj1 (find_loop_keeps _ _ _)).
    apply (inv_weaken K); [lia|done].
  - cbn. apply (inv_weaken K); [lia|]. apply locate_ind; [|done]. intros. by eapply inv_upd.
Qed.

Lemma inv_hrun : forall B ops K d, inv K d -> Forall (hop_ok B) ops -> (B <= K)%N ->
  (K + N.of_nat (length ops) < 2 ^ 64)%N -> inv (K + N.of_nat (length ops)) (hrun d ops).
Proof.
  intros B. induction ops as [|o ops IH]; intros K d I O HB HK.
  - cbn. by rewrite N.add_0_r.
  - apply Forall_cons in O as [O1 O]. cbn [hrun fold_left length] in *.
    replace (K + N.of_nat (S (length ops)))%N with ((K + 1) + N.of_nat (length ops))%N in * by lia.
    apply IH; [|done|lia|done]. apply (inv_hstep B); [done|done|done|lia].
Qed.

Lemma pow63_64 : (2 ^ 63 < 2 ^ 64)%N.
Proof. by apply N.pow_lt_mono_r. Qed.

Lemma inv_history : forall B ops, history B ops -> inv (B + N.of_nat (length ops)) (hrun db_empty ops).
Proof.
  intros B ops [O H]. apply (inv_hrun B); [apply inv_empty|done|lia|]. pose proof pow63_64. lia.
Qed.

Lemma history_app : forall B a b, history B (a ++ b) -> history B a.
Proof.
  intros B a b [O H]. apply Forall_app in O as [O1 O2]. rewrite app_length in H. split; [done|lia].
Qed.

Lemma hrun_app : forall d a b, hrun d (a ++ b) = hrun (hrun d a) b.
Proof. intros. unfold hrun. apply fold_left_app. Qed.

(** ** Counters grow *)

Definition counter_ge (id : str) (n : N) (d : db) : Prop :=
  exists b, d_vers d !! id = Some b /\ (n <= vb_seq b)%N.

Lemma counter_effect : forall K id n d c d', inv K d -> (K + 1 < 2 ^ 64)%N -> counter_ge id n d ->
  effect d c d' -> ~ removes_object id c -> counter_ge id n d'.
Proof.
  intros K id n d c d' I HK (b & Hb & Hn) E R. unfold counter_ge.
  destruct E as [c|i m o Hm0|i m Hn0 Hv|i m Hm0|i v b0 hi ui Hb0 Hu Hk|i v b0 hi ui Hb0 Hu Hk|i n0 b0 v Hb0 Hk
    |i n0 v b0 o Hb0 Hk Ht|i b0 Hb0|c m Hc]; cbn; try (exists b; done).
  - rewrite lookup_insert_ne by congruence. by exists b.
  - rewrite lookup_delete_ne; [by exists b|]. intros ->. apply R. by left.
  - destruct (decide (i = id)) as [->|N]; [|rewrite lookup_insert_ne by done; by exists b].
    rewrite lookup_insert. eexists; split; [done|]. cbn. replace b0 with b in * by congruence.
    destruct (I _ _ Hb) as [I1 _]. rewrite next_seq_lt by lia. lia.
  - destruct (decide (i = id)) as [->|N]; [|rewrite lookup_insert_ne by done; by exists b].
    rewrite lookup_insert. eexists; split; [done|]. cbn. replace b0 with b in * by congruence. lia.
  - destruct (decide (i = id)) as [->|N]; [|rewrite lookup_insert_ne by done; by exists b].
    rewrite lookup_insert. eexists; split; [done|]. cbn. by replace b0 with b in * by congruence.
  - destruct (decide (i = id)) as [->|N]; [|rewrite lookup_insert_ne by done; by exists b].
    rewrite lookup_insert. eexists; split; [done|]. cbn. by replace b0 with b in * by congruence.
  - rewrite lookup_insert_ne; [by exists b|]. intros ->. apply R. by right.
Qed.

Lemma counter_hstep : forall B K id n d o, inv K d -> (K + 1 < 2 ^ 64)%N -> hop_ok B o -> counter_ge id n d ->
  ~ is_call (removes_object id) o -> counter_ge id n (hstep d o).
Proof.
  intros B K id n d [c|h|h i l now] I HK O C R.
  - destruct O as (batch & c0 & -> & _). cbn. eapply counter_effect; [done|done|done|apply dispatch_effect|].
    intros X. apply R. by exists batch, c0.
  - cbn. unfold find_by_hash, counter_ge. by rewrite (proj1 (find_loop_keeps _ _ _)).
  - cbn. apply (locate_ind (fun d => inv K d /\ counter_ge id n d)); [|done].
    intros d0 id0 n0 v d' [I0 C0] E. split; [by eapply inv_upd|].
    eapply counter_effect; [done|done|done|done|]. intros [X|X]; done.
Qed.

Lemma counter_hrun : forall B id n ops K d, inv K d -> Forall (hop_ok B) ops -> (B <= K)%N ->
  (K + N.of_nat (length ops) < 2 ^ 64)%N -> counter_ge id n d ->
  Forall (fun o => ~ is_call (removes_object id) o) ops -> counter_ge id n (hrun d ops).
Proof.
  intros B id n. induction ops as [|o ops IH]; intros K d I O HB HK C R; [done|].
  apply Forall_cons in O as [O1 O]. apply Forall_cons in R as [R1 R]. cbn [hrun fold_left length] in *.
  apply (IH (K + 1)%N); [apply (inv_hstep B); [done|done|done|lia]|done|lia|lia| |done].
  eapply counter_hstep; [done| |done|done|done]. lia.
Qed.

Lemma has_counter : forall K d id n, inv K d -> has_version d id n -> counter_ge id n d.
Proof.
  intros K d id n I H. unfold has_version, get_ver in H. destruct (d_vers d !! id) as [b|] eqn:E; [|done].
  destruct (vb_map b !! _) as [v|] eqn:Ev; [|done]. apply (I _ _ E) in Ev as [Ek Hr].
  apply vkey_inj in Ek. subst n. exists b. split; [done|lia].
Qed.

Lemma add_number : forall K d batch id v n b, inv K d -> (K + 1 < 2 ^ 64)%N ->
  d_vers d !! id = Some b -> adds d (HCmd (command batch (AddVersion id v))) id n ->
  n = (vb_seq b + 1)%N.
Proof.
  intros K d batch id v n b I HK Hb [H1 H2]. cbn [hstep] in H2.
  pose proof (dispatch_effect batch (AddVersion id v) d) as E.
  set (d' := fst (dispatch _ _)) in *. clearbody d'.
  inversion E as [| | | |id0 v0 b0 hi ui Hb0 Hu Hk Hh Hi| | | | |c m Hc]; subst.
  - by rewrite H1 in H2.
  - unfold with_uid, with_hash, with_vers in H2. cbn in H2.
    rewrite gv_put in H2 by done. destruct (decide (id = id /\ n = next_seq b0)) as [[_ ->]|N].
    + replace b0 with b by congruence. destruct (I _ _ Hb) as [? _]. apply next_seq_lt. lia.
    + by rewrite H1 in H2.
  - change (get_ver id n d <> None) in H2. by rewrite H1 in H2.
Qed.

Lemma numbers_grow : forall B h1 o1 h2 batch id v n n',
  history B (h1 ++ o1 :: h2 ++ [HCmd (command batch (AddVersion id v))]) ->
  adds (hrun db_empty h1) o1 id n ->
  Forall (fun o => ~ is_call (removes_object id) o) h2 ->
  adds (hrun db_empty (h1 ++ o1 :: h2)) (HCmd (command batch (AddVersion id v))) id n' ->
  (n < n')%N.
Proof.
  intros B h1 o1 h2 batch id v n n' H [_ A1] R A2.
  assert (history B (h1 ++ [o1])) as Ha.
  { replace (h1 ++ o1 :: h2 ++ _) with ((h1 ++ [o1]) ++ h2 ++ [HCmd (command batch (AddVersion id v))]) in H
      by (by rewrite <-app_assoc). by apply history_app in H. }
  assert (history B (h1 ++ o1 :: h2)) as Hb.
  { replace (h1 ++ o1 :: h2 ++ _) with ((h1 ++ o1 :: h2) ++ [HCmd (command batch (AddVersion id v))]) in H
      by (by rewrite <-app_assoc). by apply history_app in H. }
  pose proof (inv_history _ _ Ha) as Ia. pose proof (inv_history _ _ Hb) as Ib.
  assert (hrun db_empty (h1 ++ [o1]) = hstep (hrun db_empty h1) o1) as E1 by (by rewrite hrun_app).
  assert (counter_ge id n (hrun db_empty (h1 ++ [o1]))) as C1.
  { eapply has_counter; [exact Ia|]. unfold has_version. by rewrite E1. }
  assert (hrun db_empty (h1 ++ o1 :: h2) = hrun (hrun db_empty (h1 ++ [o1])) h2) as E2.
  { rewrite <-hrun_app. by rewrite <-app_assoc. }
  assert (counter_ge id n (hrun db_empty (h1 ++ o1 :: h2))) as C2.
  { rewrite E2. destruct Hb as [O L]. apply Forall_app in O as [_ O]. apply Forall_cons in O as [_ O].
    eapply (counter_hrun B); [exact Ia|done|lia| |done|done]. pose proof pow63_64.
    rewrite app_length in *. cbn [length] in *. lia. }
  destruct C2 as (b & Hbk & Hn). destruct Hb as [_ L]. pose proof pow63_64.
  assert (n' = vb_seq b + 1)%N as -> by (eapply add_number; [exact Ib|lia|done|exact A2]). lia.
Qed.

(** ** Domains: an object has a version bucket exactly when it has metadata *)

Definition inv_dom (d : db) : Prop := forall id, is_Some (d_meta d !! id) <-> is_Some (d_vers d !! id).

Lemma is_Some_insert : forall {A} (m : gmap str A) i x j,
  is_Some (<[i:=x]> m !! j) <-> j = i \/ is_Some (m !! j).
Proof.
  intros A m i x j. destruct (decide (i = j)) as [<-|N].
  - rewrite lookup_insert. naive_solver eauto.
  - rewrite lookup_insert_ne by done. naive_solver.
Qed.

Lemma inv_dom_effect : forall d c d', inv_dom d -> effect d c d' -> inv_dom d'.
Proof.
  intros d c d' I E id0. specialize (I id0).
  destruct E as [c|i m o Hm0|i m Hn0 Hv|i m Hm0|i v b0 hi ui Hb0 Hu Hk|i v b0 hi ui Hb0 Hu Hk|i n0 b0 v Hb0 Hk
    |i n0 v b0 o Hb0 Hk Ht|i b0 Hb0|c m Hc]; cbn; try done; rewrite ?is_Some_insert.
  - split; [|rewrite <-I; tauto]. intros [->|X]; [|by apply I]. apply I. by exists o.
  - rewrite I. done.
  - rewrite !lookup_delete_is_Some. rewrite I. done.
  - rewrite I. split; [tauto|]. intros [->|X]; [|done]. by exists b0.
  - rewrite I. split; [tauto|]. intros [->|X]; [|done]. by exists b0.
  - rewrite I. split; [tauto|]. intros [->|X]; [|done]. by exists b0.
  - rewrite I. split; [tauto|]. intros [->|X]; [|done]. by exists b0.
  - rewrite I. split; [tauto|]. intros [->|X]; [|done]. by exists b0.
Qed.

(** Lifting an effect-preserved property to histories. *)
Lemma hstep_ind : forall (P : db -> Prop) (Q : call -> Prop),
  (forall d c d', P d -> Q c -> effect d c d' -> P d') ->
  (forall id n v, Q (UpdateVersion id n v)) ->
  forall d o, P d ->
    (forall h, o = HFind h -> P (fst (find_by_hash h d))) ->
    (forall r, o = HCmd r -> exists batch c, r = command batch c /\ Q c) ->
    P (hstep d o).
Proof.
  intros P Q HP HU d [r|h|h i l now] Hd HF HC; cbn.
  - destruct (HC r eq_refl) as (batch & c & -> & Hc). eapply HP; [done|done|apply dispatch_effect].
  - by apply HF.
  - apply locate_ind; [|done]. intros d0 id n v d' H0 E. by eapply HP.
Qed.

Lemma hrun_ind : forall (P : db -> Prop) ops d, P d ->
  (forall d o, P d -> In o ops -> P (hstep d o)) -> P (hrun d ops).
Proof.
  intros P. induction ops as [|o ops IH]; intros d Hd H; [done|]. cbn. apply IH.
  - apply H; [done|by left].
  - intros d0 o0 H0 Hin. apply H; [done|by right].
Qed.

Lemma hop_ok_cmd : forall B o r, hop_ok B o -> o = HCmd r -> exists batch c, r = command batch c /\ True.
Proof. intros B o r H ->. destruct H as (batch & c & -> & _). eauto. Qed.

Lemma inv_dom_history : forall B ops, Forall (hop_ok B) ops -> inv_dom (hrun db_empty ops).
Proof.
  intros B ops O. rewrite Forall_forall in O. apply hrun_ind.
  - intros id. cbn. split; intros [x X]; done.
  - intros d o Hd Hin. apply (hstep_ind inv_dom (fun _ => True)).
    + intros. by eapply inv_dom_effect.
    + done.
    + done.
    + intros h _ id. unfold find_by_hash. destruct (find_loop_keeps h (ksort (elements (idx_get h (d_hash d)))) d)
        as (-> & -> & _). apply Hd.
    + intros r. apply (hop_ok_cmd B). apply O. by apply elem_of_list_In.
Qed.

(** ** The hash index contains every stored version *)

Definition inv_hash (d : db) : Prop := forall id n v, get_ver id n d = Some v ->
  vkey id n ∈ idx_get (v_hash v) (d_hash d).

Lemma inv_hash_effect : forall d c d', inv_hash d -> effect d c d' -> inv_hash d'.
Proof.
  intros d c d' I E id' n' v' H.
  destruct E as [c|i m o Hm0|i m Hn0 Hv|i m Hm0|i v b0 hi ui Hb0 Hu Hk Hh|i v b0 hi ui Hb0 Hu Hk Hh|i n0 b0 v Hb0 Hk
    |i n0 v b0 o Hb0 Hk Ht|i b0 Hb0|c m Hc]; unfold with_meta, with_vers, with_hash, with_uid, with_bkt in H; cbn in H |- *;
    try (by apply I).
  - rewrite gv_clear in H. destruct (decide (id' = i)); [done|]. by apply I.
  - rewrite gv_drop in H. destruct (decide (id' = i)); [done|]. by apply I.
  - rewrite gv_put in H by done. destruct (decide _) as [[-> ->]|N].
    + injection H as <-. cbn. by eapply idx_add_in.
    + eapply idx_add_mono; [done|]. by apply I.
  - rewrite gv_put in H by done. destruct (decide _) as [[-> ->]|N].
    + injection H as <-. cbn. by eapply idx_add_in.
    + eapply idx_add_mono; [done|]. by apply I.
  - rewrite gv_del in H by done. destruct (decide _) as [X|N]; [done|].
    apply idx_remove_other; [|by apply I]. intros X. apply vkey_inj2 in X. done.
  - rewrite gv_put in H by done. destruct (decide _) as [[-> ->]|N]; [|by apply I].
    injection H as <-. cbn. apply I. unfold get_ver. by rewrite Hb0.
  - rewrite gv_clear in H. destruct (decide (id' = i)); [done|]. by apply I.
Qed.

(** Every key of the hash index is the key of some version number in range. *)
Definition inv_ikeys (K : N) (d : db) : Prop := forall h k, k ∈ idx_get h (d_hash d) ->
  exists id n, k = vkey id n /\ (1 <= n <= K)%N.

Lemma inv_ikeys_effect : forall B K d c d', inv K d -> inv_ikeys K d -> effect d c d' ->
  (forall id v, c = MigrateVersion id v -> (1 <= v_seq v <= B)%N) ->
  (B <= K)%N -> (K + 1 < 2 ^ 64)%N -> inv_ikeys (K + 1) d'.
Proof.
  intros B K d c d' I J E Hm HB HK h k H.
  assert (forall k, k ∈ idx_get h (d_hash d) -> exists id n, k = vkey id n /\ (1 <= n <= K + 1)%N) as J'.
  { intros k0 H0. destruct (J _ _ H0) as (id & n & -> & ?). exists id, n. split; [done|lia]. }
  destruct E as [c|i m o Hm0|i m Hn0 Hv|i m Hm0|i v b0 hi ui Hb0 Hu Hk Hh|i v b0 hi ui Hb0 Hu Hk Hh|i n0 b0 v Hb0 Hk
    |i n0 v b0 o Hb0 Hk Ht|i b0 Hb0|c m Hc]; cbn in H; try (by apply J').
  - destruct (idx_add_inv _ _ _ _ _ _ Hh H) as [[-> ->]|X]; [|by apply J'].
    destruct (I _ _ Hb0) as [? _]. exists i, (next_seq b0). rewrite next_seq_lt by lia. split; [done|lia].
  - destruct (idx_add_inv _ _ _ _ _ _ Hh H) as [[-> ->]|X]; [|by apply J'].
    specialize (Hm _ _ eq_refl). exists i, (v_seq v). split; [done|lia].
  - apply J'. by eapply idx_remove_sub.
Qed.

(** ** The lookup loop *)

Definition look (d : db) (k : str) : option version :=
  match cut_last "."%char k with
  | Some (name, t) => service_get_version name (to_int t) d
  | None => None
  end.

Lemma last_version_number_hash : forall name d h, last_version_number name (with_hash h d) = last_version_number name d.
Proof. done. Qed.

Lemma look_hash : forall d h k, look (with_hash h d) k = look d k.
Proof. done. Qed.

Lemma find_loop_result : forall h ks d, (forall k, k ∈ ks -> cut_last "."%char k <> None) ->
  snd (find_loop h ks d) = omap (look d) ks /\
  d_hash (fst (find_loop h ks d)) = fold_left (fun m k => match look d k with None => idx_remove h k m | Some _ => m end) ks (d_hash d).
Proof.
  intros h. induction ks as [|k ks IH]; intros d H; [done|]. cbn [find_loop omap list_omap fold_left].
  assert (forall k0, k0 ∈ ks -> cut_last "."%char k0 <> None) as H' by (intros; apply H; by constructor).
  assert (cut_last "."%char k <> None) as Hk by (apply H; by constructor).
  assert (look d k = match cut_last "."%char k with
    | Some (name, t) => service_get_version name (to_int t) d | None => None end) as EL by done.
  destruct (cut_last "."%char k) as [[name t]|]; [|done]. rewrite EL.
  destruct (service_get_version name (to_int t) d) as [v|] eqn:S.
  - destruct (IH d H') as [E1 E2]. destruct (find_loop h ks d). cbn [fst snd] in *. by rewrite E1, E2.
  - destruct (IH (with_hash (idx_remove h k (d_hash d)) d) H') as [E1 E2]. by rewrite E1, E2.
Qed.

Lemma look_vkey : forall d id n, (1 <= n < 2 ^ 63)%N -> look d (vkey id n) = get_ver id n d.
Proof.
  intros d id n H. unfold look. rewrite cut_last_vkey. rewrite to_int_print by lia.
  unfold service_get_version. destruct (Z.leb_spec (Z.of_N n) 0); [lia|]. by rewrite N2Z.id.
Qed.

Lemma fold_remove_sub : forall (f : str -> option version) h ks m h' x,
  x ∈ idx_get h' (fold_left (fun m k => match f k with None => idx_remove h k m | Some _ => m end) ks m) ->
  x ∈ idx_get h' m.
Proof.
  intros f h. induction ks as [|k ks IH]; intros m h' x H; [done|]. cbn in H. apply IH in H.
  destruct (f k); [done|]. by apply idx_remove_sub in H.
Qed.

Lemma fold_remove_keep : forall (f : str -> option version) h ks m h' x,
  f x <> None -> x ∈ idx_get h' m ->
  x ∈ idx_get h' (fold_left (fun m k => match f k with None => idx_remove h k m | Some _ => m end) ks m).
Proof.
  intros f h. induction ks as [|k ks IH]; intros m h' x Hx H; [done|]. cbn. apply IH; [done|].
  destruct (f k) eqn:E; [done|]. apply idx_remove_other; [|done]. intros ->. done.
Qed.

Lemma ikeys_dots : forall K d h k, inv_ikeys K d -> k ∈ ksort (elements (idx_get h (d_hash d))) ->
  cut_last "."%char k <> None.
Proof.
  intros K d h k J H. rewrite ksort_perm, elem_of_elements in H.
  destruct (J _ _ H) as (id & n & -> & _). by rewrite cut_last_vkey.
Qed.

Definition inv_all (K : N) (d : db) : Prop := inv K d /\ inv_hash d /\ inv_ikeys K d.

Lemma inv_ikeys_weaken : forall K K' d, (K <= K')%N -> inv_ikeys K d -> inv_ikeys K' d.
Proof. intros K K' d H J h k Hk. destruct (J _ _ Hk) as (id & n & -> & ?). exists id, n. split; [done|lia]. Qed.

Lemma inv_ikeys_upd : forall K d id n v d', inv_ikeys K d -> effect d (UpdateVersion id n v) d' -> inv_ikeys K d'.
Proof. intros K d id n v d' J E. inversion E; subst; done. Qed.

Lemma inv_all_hstep : forall B K d o, inv_all K d -> hop_ok B o -> (B <= K)%N -> (K + 1 < 2 ^ 63)%N ->
  inv_all (K + 1) (hstep d o).
Proof.
  intros B K d o (I & H & J) O HB HK. pose proof pow63_64.
  split; [apply (inv_hstep B); [done|done|done|lia]|].
  destruct o as [r|h|h i l now]; cbn.
  - destruct O as (batch & c & -> & Hc). split.
    + eapply inv_hash_effect; [done|apply dispatch_effect].
    + eapply (inv_ikeys_effect B); [exact I|done|apply dispatch_effect| |done|lia]. intros id v ->. done.
  - unfold find_by_hash. destruct (find_loop_result h (ksort (elements (idx_get h (d_hash d)))) d) as [_ E].
    { intros k Hk. by eapply ikeys_dots. }
    split.
    + intros id n v G. rewrite E. apply fold_remove_keep.
      * unfold get_ver in G. rewrite (proj1 (find_loop_keeps _ _ _)) in G. change (get_ver id n d = Some v) in G.
        assert (1 <= n < 2 ^ 63)%N as Hn.
        { unfold get_ver in G. destruct (d_vers d !! id) as [b|] eqn:Eb; [|done]. destruct (I _ _ Eb) as [I1 I2].
          apply I2 in G as [Gk ?]. apply vkey_inj in Gk. subst. lia. }
        rewrite look_vkey by done. by rewrite G.
      * apply H. unfold get_ver in G. by rewrite (proj1 (find_loop_keeps _ _ _)) in G.
    + intros h' k Hk. rewrite E in Hk. apply fold_remove_sub in Hk. destruct (J _ _ Hk) as (id & n & -> & ?).
      exists id, n. split; [done|lia].
  - apply (locate_ind (fun d => inv_hash d /\ inv_ikeys (K + 1) d)).
    + intros d0 id n v d' [Hh0 J0] E. split; [by eapply inv_hash_effect|by eapply inv_ikeys_upd].
    + split; [done|]. eapply inv_ikeys_weaken; [|done]. lia.
Qed.

Lemma inv_all_hrun : forall B ops K d, inv_all K d -> Forall (hop_ok B) ops -> (B <= K)%N ->
  (K + N.of_nat (length ops) < 2 ^ 63)%N -> inv_all (K + N.of_nat (length ops)) (hrun d ops).
Proof.
  intros B. induction ops as [|o ops IH]; intros K d I O HB HK.
  - cbn. by rewrite N.add_0_r.
  - apply Forall_cons in O as [O1 O]. cbn [hrun fold_left length] in *.
    replace (K + N.of_nat (S (length ops)))%N with ((K + 1) + N.of_nat (length ops))%N in * by lia.
    apply IH; [|done|lia|done]. apply (inv_all_hstep B); [done|done|done|lia].
Qed.

Lemma inv_all_history : forall B ops, history B ops -> inv_all (B + N.of_nat (length ops)) (hrun db_empty ops).
Proof.
  intros B ops [O H]. apply (inv_all_hrun B); [|done|lia|done].
  split; [apply inv_empty|]. split; [|intros h k Hk; done].
  intros id n v G. done.
Qed.

Lemma inv_number : forall K d id n v, inv K d -> get_ver id n d = Some v -> v_seq v = n /\ (1 <= n <= K)%N.
Proof.
  intros K d id n v I G. unfold get_ver in G. destruct (d_vers d !! id) as [b|] eqn:Eb; [|done].
  destruct (I _ _ Eb) as [I1 I2]. apply I2 in G as [Gk ?]. apply vkey_inj in Gk. subst. split; [done|lia].
Qed.

Lemma find_complete : forall B ops h id n v, history B ops ->
  get_ver id n (hrun db_empty ops) = Some v -> v_hash v = h ->
  v ∈ snd (find_by_hash h (hrun db_empty ops)).
Proof.
  intros B ops h id n v H G E. set (d := hrun db_empty ops) in *.
  destruct (inv_all_history _ _ H) as (I & J & L). fold d in I, J, L. destruct H as [_ HL].
  unfold find_by_hash. rewrite (proj1 (find_loop_result _ _ _ (fun k => ikeys_dots _ d h k L))).
  apply elem_of_list_omap. exists (vkey id n). split.
  - rewrite ksort_perm, elem_of_elements. subst h. by apply J.
  - destruct (inv_number _ _ _ _ _ I G). rewrite look_vkey by lia. done.
Qed.

(** Every version found is a stored one (of that hash or, after an object was removed
    and created again, of another). *)
Lemma find_stored : forall B ops h v, history B ops ->
  v ∈ snd (find_by_hash h (hrun db_empty ops)) -> exists id n, get_ver id n (hrun db_empty ops) = Some v.
Proof.
  intros B ops h v H. set (d := hrun db_empty ops) in *.
  destruct (inv_all_history _ _ H) as (I & J & L). fold d in I, J, L. destruct H as [_ HL].
  unfold find_by_hash. rewrite (proj1 (find_loop_result _ _ _ (fun k => ikeys_dots _ d h k L))).
  intros G. apply elem_of_list_omap in G as (k & Hk & G). rewrite ksort_perm, elem_of_elements in Hk.
  destruct (L _ _ Hk) as (id & n & -> & ?). rewrite look_vkey in G by lia. by exists id, n.
Qed.

(** *** Exactness without object removal *)

Definition inv_hexact (d : db) : Prop := forall h k, k ∈ idx_get h (d_hash d) ->
  exists id n v, k = vkey id n /\ get_ver id n d = Some v /\ v_hash v = h.

Lemma inv_hexact_effect : forall d c d', inv_hexact d -> ~ removes_some_object c -> effect d c d' -> inv_hexact d'.
Proof.
  intros d c d' J R E h k H.
  destruct E as [c|i m o Hm0|i m Hn0 Hv|i m Hm0|i v b0 hi ui Hb0 Hu Hk Hh|i v b0 hi ui Hb0 Hu Hk Hh|i n0 b0 v Hb0 Hk
    |i n0 v b0 o Hb0 Hk Ht|i b0 Hb0|c m Hc]; cbn in H; unfold with_meta, with_vers, with_hash, with_uid, with_bkt; cbn;
    try (by apply J).
  - destruct (J _ _ H) as (id & n & v & -> & G & Eh). exists id, n, v. split; [done|]. split; [|done].
    rewrite gv_clear. destruct (decide (id = i)) as [->|]; [|done]. unfold get_ver in G. by rewrite Hv in G.
  - destruct R. exists i. by left.
  - destruct (idx_add_inv _ _ _ _ _ _ Hh H) as [[-> ->]|X].
    + exists i, (next_seq b0), (with_seq (next_seq b0) v). split; [done|]. split; [|done].
      rewrite gv_put by done. by rewrite decide_True.
    + destruct (J _ _ X) as (id & n & v' & -> & G & Eh). exists id, n, v'. split; [done|]. split; [|done].
      rewrite gv_put by done. destruct (decide _) as [[-> ->]|]; [|done].
      unfold get_ver in G. rewrite Hb0 in G. congruence.
  - destruct (idx_add_inv _ _ _ _ _ _ Hh H) as [[-> ->]|X].
    + exists i, (v_seq v), v. split; [done|]. split; [|done].
      rewrite gv_put by done. by rewrite decide_True.
    + destruct (J _ _ X) as (id & n & v' & -> & G & Eh). exists id, n, v'. split; [done|]. split; [|done].
      rewrite gv_put by done. destruct (decide _) as [[-> ->]|]; [|done].
      unfold get_ver in G. rewrite Hb0 in G. congruence.
  - destruct (J _ _ (idx_remove_sub _ _ _ _ _ H)) as (id & n & v' & -> & G & Eh). exists id, n, v'.
    split; [done|]. split; [|done]. rewrite gv_del by done. destruct (decide _) as [[-> ->]|]; [|done]. exfalso.
    unfold get_ver in G. rewrite Hb0, Hk in G. injection G as <-. rewrite idx_remove_get in H.
    rewrite Eh, decide_True in H by done. set_solver.
  - destruct (J _ _ H) as (id & n & v' & -> & G & Eh). rewrite <-Eh.
    destruct (decide (id = i /\ n = n0)) as [[-> ->]|N].
    + exists i, n0, (keep_identity o v). split; [done|]. split.
      * rewrite gv_put by done. by rewrite decide_True.
      * cbn. unfold get_ver in G. rewrite Hb0 in G. congruence.
    + exists id, n, v'. split; [done|]. split; [|done]. rewrite gv_put by done. by rewrite decide_False.
  - destruct R. exists i. by right.
Qed.

Lemma inv_hexact_history : forall B ops, history B ops ->
  Forall (fun o => ~ is_call removes_some_object o) ops -> inv_hexact (hrun db_empty ops).
Proof.
  intros B ops H R.
  assert (forall ops K d, inv_all K d -> inv_hexact d -> Forall (hop_ok B) ops -> (B <= K)%N ->
    (K + N.of_nat (length ops) < 2 ^ 63)%N ->
    Forall (fun o => ~ is_call removes_some_object o) ops -> inv_hexact (hrun d ops)) as X.
  { clear. induction ops as [|o ops IH]; intros K d I J O HB HK R; [done|].
    apply Forall_cons in O as [O1 O]. apply Forall_cons in R as [R1 R]. cbn [hrun fold_left length] in *.
    apply (IH (K + 1)%N); [apply (inv_all_hstep B); [done|done|done|lia]| |done|lia|lia|done].
    destruct o as [r|h|h i l now]; cbn.
    - destruct O1 as (batch & c & -> & Hc). eapply inv_hexact_effect; [done| |apply dispatch_effect].
      intros X. apply R1. by exists batch, c.
    - unfold find_by_hash. destruct I as (I & IH' & L).
      destruct (find_loop_result h (ksort (elements (idx_get h (d_hash d)))) d) as [_ E].
      { intros k Hk. by eapply ikeys_dots. }
      intros h' k Hk. rewrite E in Hk. apply fold_remove_sub in Hk. destruct (J _ _ Hk) as (id & n & v & -> & G & Eh).
      exists id, n, v. split; [done|]. split; [|done]. unfold get_ver. by rewrite (proj1 (find_loop_keeps _ _ _)).
    - apply locate_ind; [|done]. intros d0 id n v d' H0 E. eapply inv_hexact_effect; [done| |done].
      intros (id' & [X|X]); done. }
  destruct H as [O HL]. apply (X ops B db_empty).
  - split; [apply inv_empty|]. split; [by intros id n v G|intros h k Hk; done].
  - intros h k Hk. done.
  - done.
  - lia.
  - done.
  - done.
Qed.

Lemma omap_all : forall {A C} (f : A -> option C) (P : A -> C -> Prop) (l : list A),
  (forall x, x ∈ l -> exists y, f x = Some y /\ P x y) -> Forall2 P l (omap f l).
Proof.
  intros A C f P. induction l as [|x l IH]; intros H; [constructor|]. cbn.
  destruct (H x) as (y & Hy & HP); [by constructor|]. rewrite Hy. constructor; [done|]. apply IH.
  intros z Hz. apply H. by constructor.
Qed.

Definition key_parts (k : str) : str * N :=
  match cut_last "."%char k with Some (name, t) => (name, Z.to_N (to_int t)) | None => ([], 0%N) end.

Lemma key_parts_vkey : forall id n, (n < 2 ^ 63)%N -> key_parts (vkey id n) = (id, n).
Proof. intros id n H. unfold key_parts. rewrite cut_last_vkey, to_int_print by done. by rewrite N2Z.id. Qed.

Lemma find_exact : forall B ops h, history B ops ->
  Forall (fun o => ~ is_call removes_some_object o) ops ->
  exists l : list (str * N), NoDup l /\
    (forall id n, (id, n) ∈ l <-> exists v, get_ver id n (hrun db_empty ops) = Some v /\ v_hash v = h) /\
    Forall2 (fun p v => get_ver (fst p) (snd p) (hrun db_empty ops) = Some v) l
            (snd (find_by_hash h (hrun db_empty ops))).
Proof.
  intros B ops h H R. pose proof (inv_hexact_history _ _ H R) as X. set (d := hrun db_empty ops) in *.
  destruct (inv_all_history _ _ H) as (I & J & L). fold d in I, J, L. destruct H as [_ HL].
  set (ks := ksort (elements (idx_get h (d_hash d)))).
  assert (forall k, k ∈ ks -> exists id n v, k = vkey id n /\ get_ver id n d = Some v /\ v_hash v = h /\ (1 <= n < 2^63)%N) as Hks.
  { intros k Hk. unfold ks in Hk. rewrite ksort_perm, elem_of_elements in Hk. destruct (X _ _ Hk) as (id & n & v & -> & G & E).
    exists id, n, v. split_and!; try done; destruct (inv_number _ _ _ _ _ I G); lia. }
  exists (key_parts <$> ks). split_and!.
  - apply NoDup_fmap_2_strong.
    + intros k1 k2 H1 H2 E. destruct (Hks _ H1) as (i1 & n1 & ? & -> & _ & _ & ?).
      destruct (Hks _ H2) as (i2 & n2 & ? & -> & _ & _ & ?). rewrite !key_parts_vkey in E by lia.
      by injection E as -> ->.
    + unfold ks. rewrite ksort_perm. apply NoDup_elements.
  - intros id n. split.
    + intros Hin. apply elem_of_list_fmap in Hin as (k & E & Hk). destruct (Hks _ Hk) as (i & m & v & -> & G & Eh & ?).
      rewrite key_parts_vkey in E by lia. injection E as -> ->. by exists v.
    + intros (v & G & Eh). apply elem_of_list_fmap. exists (vkey id n). destruct (inv_number _ _ _ _ _ I G).
      rewrite key_parts_vkey by lia. split; [done|]. unfold ks. rewrite ksort_perm, elem_of_elements. subst h. by apply J.
  - unfold find_by_hash. fold ks. rewrite (proj1 (find_loop_result _ _ _ (fun k => ikeys_dots _ d h k L))). fold ks.
    apply Forall2_fmap_l. apply omap_all.
    intros k Hk. destruct (Hks _ Hk) as (id & n & v & -> & G & _ & ?). rewrite look_vkey by done. exists v.
    split; [done|]. cbn. by rewrite key_parts_vkey by lia.
Qed.
