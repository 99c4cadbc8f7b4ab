(** Lemmas about the collector and the stores of measurements. *)
From Verif Require Import Str_Model Str_Proofs Util_Model Codec_Model Codec_Proofs Perf_Model Perf_Spec.
From Coq Require Import Permutation Sorting.
Local Open Scope Z_scope.
Local Open Scope list_scope.

(** ** The collector *)

Lemma crun_snoc : forall cf es e c, crun cf (es ++ [e]) c = cstep cf (crun cf es c) e.
Proof. intros. unfold crun. rewrite fold_left_app. reflexivity. Qed.

Lemma ran_snoc : forall es e, fold_left ran_step (es ++ [e]) ([], []) = ran_step (fold_left ran_step es ([], [])) e.
Proof. intros. rewrite fold_left_app. reflexivity. Qed.

Lemma pending_waiting : forall cf es, cl_pending (crun cf es coll_new) = waiting es.
Proof.
  intros cf es. induction es as [|e es IH] using rev_ind; [reflexivity|].
  rewrite crun_snoc. unfold waiting in *. rewrite ran_snoc.
  destruct (fold_left ran_step es ([], [])) as [R W]. cbn [fst snd] in IH.
  destruct (crun cf es coll_new) as [m s w]. cbn [cl_pending] in IH. subst w.
  destruct e as [p|i ok|due ok|ok]; cbn [cstep ran_step cl_pending fst snd].
  - reflexivity.
  - destruct (nth_error W i) as [p|]; [|reflexivity]. unfold cput, flush. cbn [cl_mem cl_saved cl_pending].
    destruct (_ <? _)%nat; [destruct (pc_flush cf); [destruct ok|]|]; reflexivity.
  - destruct due, ok; reflexivity.
  - destruct ok; reflexivity.
Qed.

Lemma run_split : forall (W : list perf) i p, nth_error W i = Some p ->
  Permutation W (p :: firstn i W ++ skipn (S i) W).
Proof.
  intros W i p H. apply nth_error_split in H as (l1 & l2 & -> & <-).
  rewrite firstn_app, Nat.sub_diag, firstn_all. cbn [firstn]. rewrite app_nil_r.
  replace (skipn (S (List.length l1)) (l1 ++ p :: l2)) with l2.
  - symmetry. apply Permutation_middle.
  - rewrite skipn_app. rewrite skipn_all2 by lia.
    replace (S (List.length l1) - List.length l1)%nat with 1%nat by lia. reflexivity.
Qed.

Lemma ran_waiting : forall es, Permutation (ran es ++ waiting es) (calls es).
Proof.
  intros es. induction es as [|e es IH] using rev_ind; [reflexivity|].
  unfold ran, waiting, calls in *. rewrite ran_snoc, flat_map_app.
  destruct (fold_left ran_step es ([], [])) as [R W]. cbn [fst snd] in IH.
  destruct e as [p|i ok|due ok|ok]; cbn [ran_step fst snd flat_map app]; rewrite ?app_nil_r; try exact IH.
  - rewrite app_assoc. apply Permutation_app_tail. exact IH.
  - destruct (nth_error W i) as [p|] eqn:E; cbn [fst snd]; [|exact IH].
    rewrite <- IH. rewrite <- app_assoc. apply Permutation_app_head. symmetry. apply run_split. exact E.
Qed.

(** Flushing when full: nothing is lost, in order. *)
Lemma flush_keeps : forall cf es, pc_flush cf = true ->
  let c := crun cf es coll_new in cl_saved c ++ cl_mem c = ran es.
Proof.
  intros cf es F. cbv zeta. induction es as [|e es IH] using rev_ind; [reflexivity|].
  pose proof (pending_waiting cf es) as PW. rewrite crun_snoc. unfold ran, waiting in *. rewrite ran_snoc.
  destruct (fold_left ran_step es ([], [])) as [R W]. cbn [fst snd] in IH, PW.
  destruct (crun cf es coll_new) as [m s w]. cbn [cl_pending cl_mem cl_saved] in IH, PW. subst w R.
  destruct e as [p|i ok|due ok|ok]; cbn [cstep ran_step cl_pending cl_mem cl_saved fst snd].
  - reflexivity.
  - destruct (nth_error W i) as [p|]; [|reflexivity]. unfold cput, flush. cbn [cl_mem cl_saved cl_pending fst]. rewrite F.
    destruct (_ <? _)%nat; [destruct ok|]; cbn [cl_mem cl_saved]; rewrite ?app_nil_r, ?app_assoc; reflexivity.
  - destruct due, ok; cbn; rewrite ?app_nil_r; reflexivity.
  - destruct ok; cbn; rewrite ?app_nil_r; reflexivity.
Qed.

(** Dropping when full: what is in memory are the latest ones, and never too many. *)
Lemma window : forall cf es, pc_flush cf = false ->
  let c := crun cf es coll_new in
  (List.length (cl_mem c) <= pc_max cf)%nat /\ exists before, ran es = before ++ cl_mem c /\
    exists lost, Permutation before (cl_saved c ++ lost) /\ ((List.length (ran es) <= pc_max cf)%nat -> lost = []).
Proof.
  intros cf es F. cbv zeta. induction es as [|e es IH] using rev_ind.
  - cbn. split; [lia|]. exists []. split; [reflexivity|]. exists []. split; [reflexivity|]. reflexivity.
  - pose proof (pending_waiting cf es) as PW. rewrite crun_snoc. unfold ran, waiting in *. rewrite ran_snoc.
    destruct (fold_left ran_step es ([], [])) as [R W]. cbn [fst snd] in IH, PW.
    destruct (crun cf es coll_new) as [m s w]. cbn [cl_pending cl_mem cl_saved] in IH, PW. subst w.
    destruct IH as (L & before & E & lost & P & N). subst R.
    assert (G : forall ok, let c := flush ok (mk_coll m s W) in
      (List.length (cl_mem c) <= pc_max cf)%nat /\ exists bf, before ++ m = bf ++ cl_mem c /\
      exists lost, Permutation bf (cl_saved c ++ lost) /\ ((List.length (before ++ m) <= pc_max cf)%nat -> lost = [])).
    { intros [|]; cbn.
      - split; [lia|]. exists (before ++ m). split; [rewrite app_nil_r; reflexivity|]. exists lost. split; [|exact N].
        rewrite <- app_assoc, (Permutation_app_comm m lost), app_assoc. apply Permutation_app_tail. exact P.
      - split; [exact L|]. exists before. split; [reflexivity|]. exists lost. split; assumption. }
    destruct e as [p|i ok|due ok|ok]; cbn [cstep ran_step cl_pending cl_mem cl_saved fst snd].
    + split; [exact L|]. exists before. split; [reflexivity|]. exists lost. split; assumption.
    + destruct (nth_error W i) as [p|].
      2:{ cbn. split; [exact L|]. exists before. split; [reflexivity|]. exists lost. split; assumption. }
      unfold cput. cbn [cl_mem cl_saved cl_pending fst]. rewrite F.
      destruct (Nat.ltb_spec (pc_max cf) (List.length (m ++ [p]))) as [H|H]; cbn [cl_mem cl_saved].
      * rewrite app_length in H. cbn in H. destruct m as [|x m].
        { cbn in *. split; [lia|]. exists (before ++ [p]). split; [rewrite !app_nil_r; reflexivity|].
          exists (lost ++ [p]). split; [rewrite app_assoc; apply Permutation_app_tail; exact P|].
          rewrite !app_length. cbn. intros; lia. }
        cbn [List.tl app]. split; [rewrite app_length in *; cbn in *; lia|].
        exists (before ++ [x]). split; [rewrite <- !app_assoc; reflexivity|]. exists (lost ++ [x]).
        split; [rewrite app_assoc; apply Permutation_app_tail; exact P|].
        rewrite !app_length. cbn in *. intros; lia.
      * split; [exact H|]. exists before. split; [rewrite app_assoc; reflexivity|]. exists lost. split; [exact P|].
        intros K. apply N. rewrite !app_length in *. lia.
    + destruct due; [apply (G ok)|]. split; [exact L|]. exists before. split; [reflexivity|]. exists lost. split; assumption.
    + apply (G ok).
Qed.

(** With a store that never refuses, memory stays within its bound. *)
Lemma bounded : forall cf es, Forall obliging es -> (List.length (cl_mem (crun cf es coll_new)) <= pc_max cf)%nat.
Proof.
  intros cf es. destruct (pc_flush cf) eqn:F; [|intros _; apply (window cf es F)].
  induction es as [|e es IH] using rev_ind; intros O; [cbn; lia|].
  apply Forall_app in O as [O1 O2]. inversion_clear O2 as [|? ? Oe _]. specialize (IH O1). rewrite crun_snoc.
  destruct (crun cf es coll_new) as [m s w]. cbn [cl_mem] in IH.
  destruct e as [p|i ok|due ok|ok]; cbn in Oe; subst; cbn [cstep cl_mem cl_pending cl_saved].
  - exact IH.
  - destruct (nth_error w i) as [p|]; [|exact IH]. unfold cput, flush. cbn [cl_mem cl_saved cl_pending]. rewrite F.
    destruct (Nat.ltb_spec (pc_max cf) (List.length (m ++ [p]))) as [H|H]; cbn [cl_mem]; [cbn; lia|exact H].
  - destruct due; cbn; [lia|exact IH].
  - cbn. lia.
Qed.

(** With a store that refuses, it grows without end. *)
Fixpoint refused (n : nat) (p : perf) : list cev :=
  match n with O => [] | S n' => refused n' p ++ [EAsync p; ERun 0 false] end.
Lemma refused_grows : forall cf n p, pc_flush cf = true ->
  let c := crun cf (refused n p) coll_new in List.length (cl_mem c) = n /\ cl_pending c = [].
Proof.
  intros cf n p F. cbv zeta. induction n as [|n [IH1 IH2]]; [split; reflexivity|].
  cbn [refused]. unfold crun in *. rewrite fold_left_app.
  destruct (fold_left (cstep cf) (refused n p) coll_new) as [m s w]. cbn in IH1, IH2. subst w.
  cbn [fold_left cstep cl_mem cl_saved cl_pending app nth_error firstn skipn]. unfold cput. cbn [cl_mem cl_saved cl_pending].
  rewrite F. destruct (_ <? _)%nat; cbn [flush cl_mem cl_pending]; split; try reflexivity; rewrite app_length; cbn; lia.
Qed.

(** ** Pairs in key order *)

Definition klt {V} (x y : str * V) : Prop := str_ltb (fst x) (fst y) = true.

Lemma kv_put_in : forall {V} k (v : V) l, ~ In k (map fst l) -> Permutation (kv_put k v l) ((k, v) :: l).
Proof.
  intros V k v l. induction l as [|[k' v'] l IH]; cbn; intros H; [reflexivity|].
  destruct (str_eq_dec k k') as [->|N]; [exfalso; apply H; left; reflexivity|].
  destruct (str_ltb k k'); [reflexivity|]. rewrite IH by tauto. apply perm_swap.
Qed.

Lemma kv_put_sorted : forall {V} k (v : V) l, StronglySorted klt l -> StronglySorted klt (kv_put k v l).
Proof.
  intros V k v l S. induction S as [|[k' v'] l S IH F]; cbn; [repeat constructor|].
  destruct (str_eq_dec k k') as [->|N]; [constructor; assumption|].
  destruct (str_ltb k k') eqn:E.
  - constructor; [constructor; assumption|]. constructor; [exact E|].
    rewrite Forall_forall in *. intros x X. specialize (F x X). unfold klt in *. cbn in *. eapply str_ltb_trans; eassumption.
  - constructor; [exact IH|]. clear IH. rewrite Forall_forall in *.
    assert (str_ltb k' k = true) as G by (destruct (str_ltb_total k k') as [C|[C|C]]; congruence).
    assert (forall x, In x (kv_put k v l) -> x = (k, v) \/ In x l) as I.
    { clear. induction l as [|[a b] l IH]; cbn; intros x X; [destruct X as [<-|[]]; auto|].
      destruct (str_eq_dec k a); [destruct X as [<-|X]; auto|].
      destruct (str_ltb k a); [destruct X as [<-|X]; auto|].
      destruct X as [<-|X]; [auto|]. destruct (IH x X); auto. }
    intros x X. apply I in X as [->|X]; [exact G|exact (F x X)].
Qed.

Lemma kv_get_put_eq : forall {V} k (v : V) l, kv_get k (kv_put k v l) = Some v.
Proof.
  intros V k v l. induction l as [|[k' v'] l IH]; cbn.
  - destruct (str_eq_dec k k); congruence.
  - destruct (str_eq_dec k k') as [->|N]; cbn.
    + destruct (str_eq_dec k' k'); congruence.
    + destruct (str_ltb k k'); cbn; [destruct (str_eq_dec k k); congruence|].
      destruct (str_eq_dec k k'); congruence.
Qed.

Lemma kv_get_put_ne : forall {V} k (v : V) n l, n <> k -> kv_get n (kv_put k v l) = kv_get n l.
Proof.
  intros V k v n l H. induction l as [|[k' v'] l IH]; cbn.
  - destruct (str_eq_dec n k); congruence.
  - destruct (str_eq_dec k k') as [->|N]; cbn.
    + destruct (str_eq_dec n k'); congruence.
    + destruct (str_ltb k k'); cbn.
      * destruct (str_eq_dec n k); congruence.
      * rewrite IH. reflexivity.
Qed.

Lemma kv_get_in : forall {V} k (v : V) l, kv_get k l = Some v -> In (k, v) l.
Proof.
  intros V k v l. induction l as [|[k' v'] l IH]; cbn; [discriminate|].
  destruct (str_eq_dec k k') as [->|N]; [intros [= ->]; auto|auto].
Qed.

Lemma kv_get_none : forall {V} k (l : list (str * V)), kv_get k l = None <-> ~ In k (map fst l).
Proof.
  intros V k l. induction l as [|[k' v'] l IH]; cbn; [tauto|].
  destruct (str_eq_dec k k') as [->|N]; [split; [discriminate|intros H; exfalso; apply H; auto]|].
  rewrite IH. split; [intros H [->|C]; [congruence|exact (H C)]|tauto].
Qed.

Lemma sorted_nodup : forall {V} (l : list (str * V)), StronglySorted klt l -> NoDup (map fst l).
Proof.
  intros V l S. induction S as [|x l S IH F]; cbn; constructor; [|exact IH].
  intros I. apply in_map_iff in I as (y & E & I). rewrite Forall_forall in F. specialize (F y I).
  unfold klt in F. rewrite <- E, str_ltb_irrefl in F. discriminate.
Qed.

Lemma sorted_get : forall {V} k (v : V) l, StronglySorted klt l -> In (k, v) l -> kv_get k l = Some v.
Proof.
  intros V k v l S. apply sorted_nodup in S. induction l as [|[k' v'] l IH]; cbn; [tauto|].
  inversion_clear S as [|? ? N S']. intros [[= -> ->]|I].
  - destruct (str_eq_dec k k); congruence.
  - destruct (str_eq_dec k k') as [->|]; [|auto]. exfalso. apply N. change k' with (fst (k', v)). apply in_map, I.
Qed.

Lemma sorted_filter : forall {V} f (l : list (str * V)), StronglySorted klt l -> StronglySorted klt (filter f l).
Proof.
  intros V f l S. induction S as [|x l S IH F]; cbn; [constructor|].
  destruct (f x); [|exact IH]. constructor; [exact IH|]. rewrite Forall_forall in *.
  intros y Y. apply filter_In in Y as [Y _]. exact (F y Y).
Qed.

(** ** Texts *)

Lemma has_prefix_iff : forall p s, has_prefix p s = true <-> exists r, s = p ++ r.
Proof.
  induction p as [|a p IH]; intros s; cbn; [split; [intros _; exists s; reflexivity|reflexivity]|].
  destruct s as [|b s]; [split; [discriminate|intros (r & E); discriminate]|].
  destruct (ascii_dec a b) as [->|N].
  - rewrite IH. split; intros (r & E); exists r; [subst; reflexivity|congruence].
  - split; [discriminate|]. intros (r & E). congruence.
Qed.

Lemma prefix_not_below : forall p s, has_prefix p s = true -> str_ltb s p = false.
Proof.
  induction p as [|a p IH]; intros [|b s]; cbn; try reflexivity; try discriminate.
  destruct (ascii_dec a b) as [->|N]; [|discriminate].
  intros H. rewrite N.ltb_irrefl, N.eqb_refl. apply IH, H.
Qed.

(** Below [p], or with the prefix [p], or above every text with it. *)
Lemma above_prefix : forall p s t, str_ltb s p = false -> has_prefix p s = false -> has_prefix p t = true ->
  str_ltb t s = true.
Proof.
  induction p as [|a p IH]; intros s t H1 H2 H3; [cbn in H2; discriminate|].
  destruct t as [|c t]; [discriminate|]. cbn in H3. destruct (ascii_dec a c) as [<-|]; [|discriminate].
  destruct s as [|b s]; [cbn in H1; discriminate|]. cbn in H1, H2 |- *.
  destruct (N.ltb_spec (N_of_ascii b) (N_of_ascii a)) as [L|L]; [discriminate|].
  destruct (N.eqb_spec (N_of_ascii b) (N_of_ascii a)) as [E|E].
  - apply N_of_ascii_inj in E as <-. destruct (ascii_dec b b) as [_|]; [|congruence].
    rewrite N.ltb_irrefl, N.eqb_refl. exact (IH s t H1 H2 H3).
  - destruct (N.ltb_spec (N_of_ascii a) (N_of_ascii b)); [reflexivity|lia].
Qed.

Lemma drop_prefix_above : forall {V} p (l : list (str * V)) x, StronglySorted klt (x :: l) ->
  str_ltb (fst x) p = false -> drop_prefix p (x :: l) = filter (fun e => negb (has_prefix p (fst e))) (x :: l).
Proof.
  intros V p l. induction l as [|y l IH]; intros [k v] S B; cbn in B.
  - cbn. destruct (has_prefix p k); reflexivity.
  - cbn [drop_prefix filter fst]. destruct (has_prefix p k) eqn:E; cbn [negb].
    + inversion_clear S as [|? ? S' F]. apply IH; [exact S'|]. inversion_clear F as [|? ? K _]. unfold klt in K. cbn in K.
      destruct (str_ltb (fst y) p) eqn:C; [|reflexivity]. rewrite (str_ltb_trans _ _ _ K C) in B. discriminate.
    + f_equal. symmetry. change (filter (fun e : str * V => negb (has_prefix p (fst e))) (y :: l) = y :: l).
      inversion_clear S as [|? ? S' F]. rewrite Forall_forall in F.
      assert (forall z, In z (y :: l) -> has_prefix p (fst z) = false) as G.
      { intros z Z. specialize (F z Z). unfold klt in F. cbn [fst] in F. destruct (has_prefix p (fst z)) eqn:C; [|reflexivity].
        pose proof (above_prefix p k (fst z) B E C) as L. pose proof (str_ltb_trans _ _ _ F L) as T.
        rewrite str_ltb_irrefl in T. discriminate. }
      clear - G. induction (y :: l) as [|z l' IH]; [reflexivity|]. cbn [filter].
      rewrite (G z) by (left; reflexivity). cbn. f_equal. apply IH. intros w W. apply G. right. exact W.
Qed.

(** The deleting loop deletes exactly the keys with the prefix. *)
Lemma del_prefix_filter : forall {V} p (l : list (str * V)), StronglySorted klt l ->
  del_prefix p l = filter (fun e => negb (has_prefix p (fst e))) l.
Proof.
  intros V p l S. induction S as [|[k v] l S IH F]; [reflexivity|].
  cbn [del_prefix]. destruct (str_ltb k p) eqn:E.
  - cbn [filter fst]. destruct (has_prefix p k) eqn:C; [rewrite (prefix_not_below _ _ C) in E; discriminate|].
    cbn [negb]. f_equal. exact IH.
  - change (if has_prefix p k then drop_prefix p l else (k, v) :: l) with (drop_prefix p ((k, v) :: l)).
    apply drop_prefix_above; [constructor; assumption|exact E].
Qed.

Lemma digit_not_dot : forall n, ~ In "."%char (print_N n).
Proof. intros n. apply print_N_notin. reflexivity. Qed.

Lemma key_prefix_key : forall a n, ~ In "."%char a -> key_prefix (a ++ "."%char :: print_N n) = a.
Proof.
  intros a n H. unfold key_prefix. rewrite split_on_app by exact H.
  rewrite split_on_notin by apply digit_not_dot. reflexivity.
Qed.

Lemma app_dot_inj : forall (a b : str) x y, ~ In "."%char x -> ~ In "."%char y ->
  a ++ "."%char :: x = b ++ "."%char :: y -> a = b /\ x = y.
Proof.
  intros a. induction a as [|c a IH]; intros [|d b] x y Hx Hy E; cbn in E.
  - injection E as ->. auto.
  - injection E as <- E. exfalso. apply Hx. rewrite E. apply in_or_app. right. left. reflexivity.
  - injection E as -> E. exfalso. apply Hy. rewrite <- E. apply in_or_app. right. left. reflexivity.
  - injection E as -> E. destruct (IH b x y Hx Hy E) as [-> ->]. auto.
Qed.

(** Keys of another name that stand between [a] and a key of [a]. *)
Lemma between_keys : forall a b n m, ~ In "."%char a -> ~ In "."%char b -> a <> b ->
  str_ltb (b ++ "."%char :: print_N m) a = false ->
  str_ltb (b ++ "."%char :: print_N m) (a ++ "."%char :: print_N n) = true -> between a b.
Proof.
  induction a as [|x a IH]; intros b n m Ha Hb N H1 H2.
  - destruct b as [|c b]; [congruence|]. exists c, b. split; [reflexivity|].
    cbn [app str_ltb] in H2. destruct (N.ltb_spec (N_of_ascii c) (N_of_ascii ".")) as [L|L]; [exact L|].
    destruct (N.eqb_spec (N_of_ascii c) (N_of_ascii ".")) as [E|E]; [|discriminate].
    apply N_of_ascii_inj in E as ->. exfalso. apply Hb. left. reflexivity.
  - destruct b as [|c b].
    + cbn [app str_ltb] in H1, H2. destruct (N.ltb_spec (N_of_ascii ".") (N_of_ascii x)) as [L|L]; [discriminate|].
      destruct (N.eqb_spec (N_of_ascii ".") (N_of_ascii x)) as [E|E]; [|discriminate].
      apply N_of_ascii_inj in E. exfalso. apply Ha. left. symmetry. exact E.
    + cbn [app str_ltb] in H1, H2. destruct (N.ltb_spec (N_of_ascii c) (N_of_ascii x)) as [L|L]; [discriminate|].
      destruct (N.eqb_spec (N_of_ascii c) (N_of_ascii x)) as [E|E]; [|discriminate].
      apply N_of_ascii_inj in E as ->.
      destruct (IH b n m) as (d & r & -> & D).
      * intros I. apply Ha. right. exact I.
      * intros I. apply Hb. right. exact I.
      * congruence.
      * exact H1.
      * exact H2.
      * exists d, r. split; [reflexivity|exact D].
Qed.

(** ** Lists *)

Lemma filter_perm : forall {A} (f : A -> bool) l l', Permutation l l' -> Permutation (filter f l) (filter f l').
Proof.
  intros A f l l' P. induction P; cbn; [reflexivity| | |etransitivity; eassumption].
  - destruct (f x); [constructor|]; assumption.
  - destruct (f x), (f y); try reflexivity. apply perm_swap.
Qed.

Lemma filter_map : forall {A B} (g : A -> B) (f : B -> bool) l, filter f (map g l) = map g (filter (fun x => f (g x)) l).
Proof. intros A B g f l. induction l as [|x l IH]; cbn; [reflexivity|]. destruct (f (g x)); cbn; rewrite IH; reflexivity. Qed.

Lemma filter_id : forall {A} (f : A -> bool) l, (forall x, In x l -> f x = true) -> filter f l = l.
Proof.
  intros A f l. induction l as [|x l IH]; intros H; [reflexivity|]. cbn. rewrite (H x) by (left; reflexivity). f_equal. apply IH.
  intros y I. apply H. right. exact I.
Qed.

Lemma filter_filter : forall {A} (f g : A -> bool) l, filter f (filter g l) = filter (fun x => g x && f x) l.
Proof.
  intros A f g l. induction l as [|x l IH]; cbn; [reflexivity|]. destruct (g x); cbn; [destruct (f x); rewrite IH; reflexivity|exact IH].
Qed.

Lemma filter_length_perm : forall {A} (f : A -> bool) l l', Permutation l l' -> List.length (filter f l) = List.length (filter f l').
Proof. intros A f l l' P. apply Permutation_length, filter_perm, P. Qed.

Lemma NoDup_map_filter : forall {A B} (g : A -> B) (f : A -> bool) l, NoDup (map g l) -> NoDup (map g (filter f l)).
Proof.
  intros A B g f l. induction l as [|x l IH]; cbn; intros H; [constructor|]. inversion_clear H as [|? ? N H'].
  destruct (f x); cbn; [constructor; [|auto]|auto]. intros I. apply N. apply in_map_iff in I as (y & <- & Y).
  apply filter_In in Y as [Y _]. apply in_map, Y.
Qed.

(** ** Costs *)

Lemma wrap64_id : forall z, duration z -> wrap64 z = z.
Proof. intros z H. unfold wrap64, duration in *. rewrite Z.mod_small by lia. lia. Qed.

Lemma dec_enc : forall c, duration c -> dec_cost (enc_cost c) = c.
Proof.
  intros c H. unfold enc_cost, dec_cost. unfold duration in H.
  assert (0 <= c mod 2 ^ 64 < 2 ^ 64) as R by (apply Z.mod_pos_bound; lia).
  destruct (int_bytes_roundtrip (Z.to_N (c mod 2 ^ 64))) as (b & -> & _ & E).
  - apply N2Z.inj_lt. rewrite Z2N.id by lia. exact (proj2 R).
  - rewrite E, Z2N.id by lia. unfold wrap64. rewrite Zplus_mod_idemp_l.
    change ((c + 2 ^ 63) mod 2 ^ 64 - 2 ^ 63 = c). rewrite Z.mod_small by lia. lia.
Qed.

(** ** One bucket *)

(** The pair of a measurement under its number. *)
Definition entry (lb : perf -> str) (e : perf * N) : str * list byte :=
  (lb (fst e) ++ "."%char :: print_N (snd e), enc_cost (p_cost (fst e))).

(** A bucket that holds the measurements [L]. *)
Definition binv (lb : perf -> str) (b : bkt) (L : list perf) : Prop :=
  StronglySorted klt (bk_kvs b) /\
  exists E, Permutation (map fst E) L /\ Permutation (bk_kvs b) (map (entry lb) E) /\
            NoDup (map snd E) /\ Forall (fun e => (snd e <= bk_seq b)%N) E.

Lemma binv_empty : forall lb, binv lb (mk_bkt 0 []) [].
Proof. intros lb. split; [constructor|]. exists []. cbn. repeat split; constructor. Qed.

Lemma binv_perm : forall lb b L L', Permutation L L' -> binv lb b L -> binv lb b L'.
Proof. intros lb b L L' P [S (E & P1 & R)]. split; [exact S|]. exists E. split; [rewrite P1; exact P|exact R]. Qed.

Lemma binv_put : forall lb p b L, binv lb b L -> binv lb (put_seq (lb p) (enc_cost (p_cost p)) b) (L ++ [p]).
Proof.
  intros lb p b L [S (E & P1 & P2 & N & F)]. unfold put_seq. split; cbn [bk_kvs]; [apply kv_put_sorted, S|].
  exists ((p, (bk_seq b + 1)%N) :: E). cbn [map fst snd]. split; [|split; [|split]].
  - rewrite P1. apply Permutation_cons_append.
  - rewrite kv_put_in; [apply perm_skip; exact P2|]. intros I.
    apply (Permutation_in _ (Permutation_map fst P2)) in I. rewrite map_map in I. apply in_map_iff in I as (e & E1 & I).
    cbn in E1. apply app_dot_inj in E1 as [_ E1]; [|apply digit_not_dot|apply digit_not_dot].
    apply print_N_inj in E1. rewrite Forall_forall in F. specialize (F e I). lia.
  - constructor; [|exact N]. intros I. apply in_map_iff in I as (e & E1 & I). rewrite Forall_forall in F.
    specialize (F e I). cbn in F. lia.
  - constructor; cbn [snd bk_seq]; [lia|]. rewrite Forall_forall in *. intros e I. specialize (F e I). cbn in F. lia.
Qed.

Lemma has_prefix_dot : forall x l d, ~ In "."%char x -> has_prefix x (l ++ "."%char :: d) = has_prefix x l.
Proof.
  induction x as [|a x IH]; intros l d H; [reflexivity|]. destruct l as [|c l]; cbn.
  - destruct (ascii_dec a ".") as [->|]; [|reflexivity]. exfalso. apply H. left. reflexivity.
  - destruct (ascii_dec a c); [|reflexivity]. apply IH. intros I. apply H. right. exact I.
Qed.

Lemma binv_del : forall lb x b L, ~ In "."%char x -> binv lb b L ->
  binv lb (mk_bkt (bk_seq b) (del_prefix x (bk_kvs b))) (filter (fun p => negb (has_prefix x (lb p))) L).
Proof.
  intros lb x b L Hx [S (E & P1 & P2 & N & F)]. unfold binv. cbn [bk_kvs bk_seq]. rewrite del_prefix_filter by exact S.
  split; [apply sorted_filter, S|].
  exists (filter (fun e => negb (has_prefix x (lb (fst e)))) E). split; [|split; [|split]].
  - rewrite <- (filter_map fst (fun p => negb (has_prefix x (lb p)))). apply filter_perm, P1.
  - rewrite (filter_perm _ _ _ P2). rewrite filter_map.
    erewrite filter_ext; [reflexivity|]. intros e. cbn [entry fst]. rewrite has_prefix_dot by exact Hx. reflexivity.
  - apply NoDup_map_filter, N.
  - rewrite Forall_forall in *. intros e I. apply filter_In in I as [I _]. exact (F e I).
Qed.

(** The loop over a kind bucket. *)
Definition back (kind : str) (kv : str * list byte) : perf := mk_perf kind (key_prefix (fst kv)) (dec_cost (snd kv)).

Lemma take_all : forall kind l, take_kind kind [] l = map (back kind) l.
Proof. intros kind l. induction l as [|[k v] l IH]; cbn; [reflexivity|]. rewrite IH. reflexivity. Qed.

Lemma take_one : forall A kind a l, a <> [] -> Forall plain A -> prefix_free A -> StronglySorted klt l ->
  (forall e, In e l -> exists b n, In b A /\ fst e = b ++ "."%char :: print_N n) ->
  take_kind kind a (seek a l) = map (back kind) (filter (fun kv => str_eqb (key_prefix (fst kv)) a) l).
Proof.
  intros A kind a l Ha PA FA S H.
  assert (T : forall l, StronglySorted klt l -> (forall e, In e l -> str_ltb (fst e) a = false) ->
    (forall e, In e l -> exists b n, In b A /\ fst e = b ++ "."%char :: print_N n) ->
    take_kind kind a l = map (back kind) (filter (fun kv => str_eqb (key_prefix (fst kv)) a) l)).
  { clear l S H. intros l S. induction S as [|[k v] l S IH F]; intros L H; [reflexivity|].
    cbn [take_kind filter fst]. destruct (str_eqb_spec a []) as [->|_]; [congruence|]. cbn [negb andb].
    destruct (str_eqb_spec (key_prefix k) a) as [E|E]; cbn [negb].
    - cbn [map]. unfold back at 1. cbn [fst snd]. f_equal. apply IH; intros; [apply L|apply H]; right; assumption.
    - symmetry. replace (filter _ l) with (@nil (str * list byte)); [reflexivity|].
      symmetry. destruct (filter _ l) as [|z zs] eqn:G; [reflexivity|]. exfalso.
      assert (In z (filter (fun kv : str * list byte => str_eqb (key_prefix (fst kv)) a) l)) as Z by (rewrite G; left; reflexivity).
      apply filter_In in Z as [Z1 Z2]. apply str_eqb_eq in Z2.
      destruct (H (k, v)) as (b & n & B & Ek); [left; reflexivity|]. destruct (H z) as (b' & m & B' & Ez); [right; exact Z1|].
      cbn [fst] in Ek. rewrite Forall_forall in PA, F.
      rewrite Ez, key_prefix_key in Z2 by apply PA, B'. subst b'.
      rewrite Ek, key_prefix_key in E by apply PA, B.
      specialize (F z Z1). unfold klt in F. cbn [fst] in F. rewrite Ek, Ez in F.
      specialize (L (k, v) (or_introl eq_refl)). cbn [fst] in L. rewrite Ek in L.
      destruct (between_keys a b m n) as (c & r & Eb & _); try assumption; try (apply PA; assumption); [congruence|].
      specialize (FA a b B' B _ Eb). discriminate. }
  induction S as [|[k v] l S IH F]; [reflexivity|]. cbn [seek].
  destruct (str_ltb k a) eqn:E.
  - cbn [filter fst]. destruct (H (k, v)) as (b & n & B & Ek); [left; reflexivity|]. cbn [fst] in Ek.
    destruct (str_eqb_spec (key_prefix k) a) as [C|C].
    + exfalso. rewrite Forall_forall in PA. rewrite Ek, key_prefix_key in C by apply PA, B. subst b.
      assert (has_prefix a k = true) as P by (apply has_prefix_iff; eexists; exact Ek).
      rewrite (prefix_not_below _ _ P) in E. discriminate.
    + apply IH. intros e I. apply H. right. exact I.
  - apply T; [constructor; assumption| |exact H]. intros e [<-|I]; [exact E|]. rewrite Forall_forall in F. specialize (F e I).
    unfold klt in F. cbn [fst] in F. destruct (str_ltb (fst e) a) eqn:C; [|reflexivity].
    rewrite (str_ltb_trans _ _ _ F C) in E. discriminate.
Qed.

(** ** One root *)

Definition rinv (nm lb : perf -> str) (r : root) (R : list perf) : Prop :=
  StronglySorted klt r /\
  forall n, match kv_get n r with
            | Some b => binv lb b (filter (fun p => str_eqb (nm p) n) R)
            | None => filter (fun p => str_eqb (nm p) n) R = []
            end.

Lemma rinv_new : forall nm lb, rinv nm lb [] [].
Proof. intros nm lb. split; [constructor|]. intros n. reflexivity. Qed.

Lemma rinv_put : forall nm lb r R p, rinv nm lb r R ->
  rinv nm lb (kv_put (nm p) (put_seq (lb p) (enc_cost (p_cost p)) (open_bkt (nm p) r)) r) (R ++ [p]).
Proof.
  intros nm lb r R p [S H]. split; [apply kv_put_sorted, S|]. intros n. rewrite filter_app. cbn [filter].
  destruct (str_eqb_spec (nm p) n) as [<-|N].
  - rewrite kv_get_put_eq. apply binv_put. specialize (H (nm p)). unfold open_bkt.
    destruct (kv_get (nm p) r) as [b|]; [exact H|]. rewrite H. apply binv_empty.
  - rewrite kv_get_put_ne by congruence. rewrite app_nil_r. exact (H n).
Qed.

Lemma rinv_delete : forall nm lb r R n x, n <> [] -> ~ In "."%char x -> rinv nm lb r R ->
  (forall p, In p R -> nm p = n -> forall t, lb p = x ++ t -> t = []) ->
  rinv nm lb (ls_delete r n x) (filter (fun p => negb (str_eqb (nm p) n && str_eqb (lb p) x)) R).
Proof.
  intros nm lb r R n x Hn Hx [S H] X. unfold ls_delete. destruct (str_eqb_spec n []) as [->|_]; [congruence|].
  split; [apply kv_put_sorted, S|]. intros m. rewrite filter_filter.
  destruct (str_eq_dec m n) as [->|N].
  - rewrite kv_get_put_eq.
    assert (filter (fun p => negb (str_eqb (nm p) n && str_eqb (lb p) x) && str_eqb (nm p) n) R =
            filter (fun p => negb (has_prefix x (lb p))) (filter (fun p => str_eqb (nm p) n) R)) as ->.
    { rewrite filter_filter. apply filter_ext_in. intros p I. destruct (str_eqb_spec (nm p) n) as [E|E]; cbn [andb]; [|apply andb_false_r].
      rewrite andb_true_r. f_equal. specialize (X p I E). destruct (has_prefix x (lb p)) eqn:C.
      - apply has_prefix_iff in C as (t & C). rewrite (X t C), app_nil_r in C. rewrite C. apply str_eqb_refl.
      - destruct (str_eqb_spec (lb p) x) as [E3|]; [|reflexivity]. exfalso. rewrite E3 in C.
        assert (has_prefix x x = true) as Q by (apply has_prefix_iff; exists []; rewrite app_nil_r; reflexivity). congruence. }
    apply binv_del; [exact Hx|]. specialize (H n). unfold open_bkt. destruct (kv_get n r); [exact H|]. rewrite H. apply binv_empty.
  - rewrite kv_get_put_ne by exact N. specialize (H m).
    assert (filter (fun p => negb (str_eqb (nm p) n && str_eqb (lb p) x) && str_eqb (nm p) m) R = filter (fun p => str_eqb (nm p) m) R) as ->.
    { apply filter_ext. intros p. destruct (str_eqb_spec (nm p) m) as [E|E]; [|apply andb_false_r]. rewrite andb_true_r.
      destruct (str_eqb_spec (nm p) n) as [E2|_]; [congruence|reflexivity]. }
    exact H.
Qed.

(** The pairs of a root, counted. *)
Lemma rinv_count : forall nm lb r R, rinv nm lb r R ->
  fold_right (fun (e : str * bkt) t => Z.of_nat (List.length (bk_kvs (snd e))) + t) 0 r = Z.of_nat (List.length R).
Proof.
  intros nm lb r. induction r as [|[n b] r IH]; intros R [S H]; cbn [fold_right].
  - destruct R as [|p R]; [reflexivity|]. specialize (H (nm p)). cbn in H. rewrite str_eqb_refl in H. discriminate.
  - pose proof (H n) as Hb. cbn [kv_get] in Hb. destruct (str_eq_dec n n) as [_|]; [|congruence].
    destruct Hb as [_ (E & P1 & P2 & _)].
    rewrite (IH (filter (fun p => negb (str_eqb (nm p) n)) R)).
    + cbn [snd]. rewrite (Permutation_length P2), map_length, <- (map_length fst), (Permutation_length P1).
      rewrite <- Nat2Z.inj_add. f_equal. clear. induction R as [|p R IH]; [reflexivity|]. cbn.
      destruct (str_eqb (nm p) n); cbn; lia.
    + inversion_clear S as [|? ? S' F]. split; [exact S'|]. intros m. rewrite filter_filter. specialize (H m). cbn [kv_get] in H.
      destruct (str_eq_dec m n) as [->|N].
      * assert (kv_get n r = None) as ->.
        { apply kv_get_none. intros I. apply in_map_iff in I as (e & E1 & I). rewrite Forall_forall in F. specialize (F e I).
          unfold klt in F. cbn in F. rewrite E1, str_ltb_irrefl in F. discriminate. }
        clear. induction R as [|p R IH]; [reflexivity|]. cbn [filter]. destruct (str_eqb (nm p) n); cbn [negb andb]; exact IH.
      * assert (filter (fun p => negb (str_eqb (nm p) n) && str_eqb (nm p) m) R = filter (fun p => str_eqb (nm p) m) R) as ->; [|exact H].
        apply filter_ext. intros p. destruct (str_eqb_spec (nm p) m) as [->|]; [|apply andb_false_r].
        destruct (str_eqb_spec m n); [congruence|reflexivity].
Qed.

(** ** The local store *)

Definition linv (s : lstore) (R : list perf) : Prop :=
  rinv p_action p_kind (open_root (ls_act s)) R /\ rinv p_kind p_action (open_root (ls_knd s)) R.

Lemma find_open : forall n r, find_bkt n r = kv_get n (open_root r).
Proof. intros n [r|]; reflexivity. Qed.

Lemma linv_put : forall l s R, linv s R -> linv (ls_put s l) (R ++ l).
Proof.
  unfold ls_put. induction l as [|p l IH]; intros s R H; cbn [fold_left]; [rewrite app_nil_r; exact H|].
  replace (R ++ p :: l) with ((R ++ [p]) ++ l) by (rewrite <- app_assoc; reflexivity). apply IH.
  destruct H as [H1 H2]. unfold ls_put1, linv. cbn [ls_act ls_knd open_root].
  split; [exact (rinv_put p_action p_kind _ _ p H1)|exact (rinv_put p_kind p_action _ _ p H2)].
Qed.

Lemma rinv_ext : forall nm lb r R R', R = R' -> rinv nm lb r R -> rinv nm lb r R'.
Proof. intros; subst; assumption. Qed.

Lemma linv_clear : forall K A k a s R, good_names K A -> In k K -> In a A -> Forall (named K A) R -> linv s R ->
  linv (snd (ls_clear s k a)) (filter (fun p => negb (matchb k a p)) R).
Proof.
  intros K A k a s R (PK & PA & FK & FA) Ik Ia N [H1 H2].
  rewrite Forall_forall in PK, PA, N. pose proof (PK k Ik) as [Hk Dk]. pose proof (PA a Ia) as [Ha Da].
  assert (str_eqb k [] = false) as Ek by (destruct (str_eqb_spec k []); congruence).
  assert (str_eqb a [] = false) as Ea by (destruct (str_eqb_spec a []); congruence).
  unfold ls_clear, matchb. rewrite Ek, Ea. cbn [snd orb]. split; cbn [ls_act ls_knd open_root].
  - eapply rinv_ext; [|apply rinv_delete; [exact Ha|exact Dk|exact H1|]].
    + apply filter_ext. intros p. rewrite andb_comm. reflexivity.
    + intros p I _ t E. apply (FK k (p_kind p) Ik (proj1 (N p I)) t E).
  - eapply rinv_ext; [|apply rinv_delete; [exact Hk|exact Da|exact H2|]].
    + reflexivity.
    + intros p I _ t E. apply (FA a (p_action p) Ia (proj1 (proj2 (N p I))) t E).
Qed.

Lemma ls_run_inv : forall K A ops, good_names K A -> Forall (lawful K A) ops ->
  linv (ls_run ops) (sp_run ops) /\ Forall (named K A) (sp_run ops).
Proof.
  intros K A ops G. induction ops as [|o ops IH] using rev_ind; intros L.
  - split; [|constructor]. split; apply rinv_new.
  - apply Forall_app in L as [L1 L2]. inversion_clear L2 as [|? ? Lo _]. destruct (IH L1) as [I N].
    unfold ls_run, sp_run in *. rewrite !fold_left_app. cbn [fold_left].
    destruct o as [l|k a]; cbn [ls_step sp_step].
    + split; [apply linv_put, I|]. apply Forall_app. split; assumption.
    + destruct Lo as [[Ik Ia]|[-> ->]].
      * split; [exact (linv_clear K A k a _ _ G Ik Ia N I)|]. rewrite Forall_forall in *. intros p P.
        apply filter_In in P as [P _]. exact (N p P).
      * assert (filter (fun p => negb (matchb [] [] p)) (fold_left sp_step ops []) = []) as ->.
        { clear. induction (fold_left sp_step ops []) as [|p l IH]; [reflexivity|]. cbn. exact IH. }
        split; [|constructor]. split; apply rinv_new.
Qed.

Lemma back_entries : forall kind E, Forall (fun e : perf * N => p_kind (fst e) = kind /\ ~ In "."%char (p_action (fst e)) /\ duration (p_cost (fst e))) E ->
  map (back kind) (map (entry p_action) E) = map fst E.
Proof.
  intros kind E F. rewrite map_map. apply map_ext_in. intros [p n] I. rewrite Forall_forall in F. destruct (F _ I) as (<- & D & C).
  cbn [fst] in *. unfold back, entry. cbn [fst snd]. rewrite key_prefix_key by exact D. rewrite dec_enc by exact C. destruct p; reflexivity.
Qed.

Lemma bkt_named : forall K A (E : list (perf * N)) nm n R, Permutation (map fst E) (filter (fun p => str_eqb (nm p) n) R) ->
  Forall (named K A) R -> Forall (fun e => nm (fst e) = n /\ named K A (fst e)) E.
Proof.
  intros K A E nm n R P N. rewrite Forall_forall in *. intros e I.
  assert (In (fst e) (filter (fun p => str_eqb (nm p) n) R)) as J by (apply (Permutation_in _ P), in_map, I).
  apply filter_In in J as [J1 J2]. apply str_eqb_eq in J2. split; [exact J2|exact (N _ J1)].
Qed.

(** [Get] by kind, by action, or by both. *)
Lemma get_correct : forall K A ops kind action, good_names K A -> Forall (lawful K A) ops -> kind <> [] \/ action <> [] ->
  match ls_get (ls_run ops) kind action with
  | Some l => Permutation l (filter (matchb kind action) (sp_run ops))
  | None => filter (matchb kind action) (sp_run ops) = []
  end.
Proof.
  intros K A ops kind action G L NE. destruct (ls_run_inv K A ops G L) as [[I1 I2] Nm].
  destruct G as (PK & PA & FK & FA). unfold ls_get, matchb. rewrite !find_open.
  destruct (str_eqb_spec kind []) as [->|Hk]; cbn [negb].
  - destruct (str_eqb_spec action []) as [->|Ha]; [destruct NE; congruence|]. cbn [orb].
    destruct I1 as [_ I1]. specialize (I1 action).
    destruct (kv_get action (open_root (ls_act (ls_run ops)))) as [b|]; [|exact I1].
    destruct I1 as [_ (E & P1 & P2 & _)]. rewrite <- P1. rewrite (Permutation_map _ P2), map_map.
    rewrite (map_ext_in _ fst); [reflexivity|]. intros [p n] I.
    pose proof (bkt_named K A E p_action action (sp_run ops) P1 Nm) as Q. rewrite Forall_forall in Q.
    destruct (Q _ I) as (<- & Q1 & _ & Q3). cbn [fst snd entry] in *. rewrite Forall_forall in PK.
    rewrite key_prefix_key by apply PK, Q1. rewrite dec_enc by exact Q3. destruct p; reflexivity.
  - destruct I2 as [_ I2]. specialize (I2 kind). cbn [orb].
    destruct (kv_get kind (open_root (ls_knd (ls_run ops)))) as [b|].
    2:{ destruct (filter (fun p => str_eqb (p_kind p) kind && _) _) as [|p l] eqn:F; [reflexivity|].
        assert (In p (filter (fun p => str_eqb (p_kind p) kind && (str_eqb action [] || str_eqb (p_action p) action)) (sp_run ops))) as J by (rewrite F; left; reflexivity).
        apply filter_In in J as [J1 J2]. apply andb_true_iff in J2 as [J2 _].
        assert (In p (filter (fun p => str_eqb (p_kind p) kind) (sp_run ops))) as J by (apply filter_In; auto). rewrite I2 in J. destruct J. }
    destruct I2 as [S (E & P1 & P2 & _)].
    pose proof (bkt_named K A E p_kind kind (sp_run ops) P1 Nm) as Q.
    assert (B : map (back kind) (map (entry p_action) E) = map fst E).
    { apply back_entries. rewrite Forall_forall in *. intros e I. destruct (Q e I) as (Q1 & _ & Q2 & Q3).
      split; [exact Q1|]. split; [apply PA, Q2|exact Q3]. }
    destruct (str_eqb_spec action []) as [->|Ha].
    + rewrite take_all, (Permutation_map _ P2), B, P1. erewrite filter_ext; [reflexivity|]. intros p. cbn [orb]. rewrite andb_true_r. reflexivity.
    + rewrite (take_one A kind action (bk_kvs b) Ha PA FA S).
      * rewrite (Permutation_map _ (filter_perm _ _ _ P2)). rewrite filter_map.
        assert (filter (fun x : perf * N => str_eqb (key_prefix (fst (entry p_action x))) action) E =
                filter (fun x => str_eqb (p_action (fst x)) action) E) as ->.
        { apply filter_ext_in. intros e I. rewrite Forall_forall in Q, PA. destruct (Q e I) as (_ & _ & Q2 & _).
          cbn [entry fst]. rewrite key_prefix_key by apply PA, Q2. reflexivity. }
        rewrite back_entries.
        -- rewrite <- (filter_map fst (fun p => str_eqb (p_action p) action)). rewrite (filter_perm _ _ _ P1), filter_filter. reflexivity.
        -- rewrite Forall_forall in *. intros e I. apply filter_In in I as [I _]. destruct (Q e I) as (Q1 & _ & Q2 & Q3).
           split; [exact Q1|]. split; [apply PA, Q2|exact Q3].
      * intros e I. apply (Permutation_in _ P2) in I. apply in_map_iff in I as ([p n] & <- & I).
        rewrite Forall_forall in Q. destruct (Q _ I) as (_ & _ & Q2 & _). exists (p_action p), n. split; [exact Q2|reflexivity].
Qed.

Lemma bkt_count : forall lb b L, binv lb b L -> List.length (bk_kvs b) = List.length L.
Proof.
  intros lb b L [_ (E & P1 & P2 & _)]. rewrite (Permutation_length P2), map_length, <- (Permutation_length P1), map_length. reflexivity.
Qed.

(** [Size]. *)
Lemma size_correct : forall K A ops kind action, good_names K A -> Forall (lawful K A) ops ->
  ls_size (ls_run ops) kind action = Z.of_nat (List.length (filter (matchb kind action) (sp_run ops))).
Proof.
  intros K A ops kind action G L. pose proof (ls_run_inv K A ops G L) as [[I1 I2] N].
  unfold ls_size. destruct (str_eqb_spec kind []) as [->|Hk]; destruct (str_eqb_spec action []) as [->|Ha].
  - assert (filter (matchb [] []) (sp_run ops) = sp_run ops) as -> by (clear; induction (sp_run ops) as [|p l IH]; [reflexivity|cbn; rewrite IH; reflexivity]).
    pose proof (rinv_count _ _ _ _ I1) as C. destruct (ls_act (ls_run ops)); cbn [open_root] in C; [exact C|cbn in C; exact C].
  - destruct I1 as [_ I1]. specialize (I1 action). rewrite find_open.
    assert (filter (matchb [] action) (sp_run ops) = filter (fun p => str_eqb (p_action p) action) (sp_run ops)) as ->.
    { apply filter_ext. intros p. unfold matchb. destruct (str_eqb_spec action []); [congruence|]. reflexivity. }
    destruct (kv_get _ _) as [b|]; [rewrite (bkt_count _ _ _ I1); reflexivity|rewrite I1; reflexivity].
  - destruct I2 as [_ I2]. specialize (I2 kind). rewrite find_open.
    assert (filter (matchb kind []) (sp_run ops) = filter (fun p => str_eqb (p_kind p) kind) (sp_run ops)) as ->.
    { apply filter_ext. intros p. unfold matchb. destruct (str_eqb_spec kind []); [congruence|]. cbn. apply andb_true_r. }
    destruct (kv_get _ _) as [b|]; [rewrite (bkt_count _ _ _ I2); reflexivity|rewrite I2; reflexivity].
  - pose proof (get_correct K A ops kind action G L (or_introl Hk)) as C.
    destruct (ls_get (ls_run ops) kind action) as [l|]; [rewrite (Permutation_length C); reflexivity|rewrite C; reflexivity].
Qed.

(** [Get] of everything: kinds and costs are right, the actions are keys. *)
Lemma flat_all : forall R K A r, Forall plain K -> rinv p_action p_kind r R -> Forall (named K A) R ->
  let l := flat_map (fun e : str * bkt =>
                map (fun kv : str * list byte => mk_perf (key_prefix (fst kv)) (fst kv) (dec_cost (snd kv)))
                    (bk_kvs (snd e))) r in
  Permutation (map (fun p => (p_kind p, p_cost p)) l) (map (fun p => (p_kind p, p_cost p)) R) /\
  Forall (fun p => exists n, p_action p = p_kind p ++ "."%char :: print_N n) l.
Proof.
  intros R K A r PK. cbv zeta. revert R. induction r as [|[n b] r IH]; intros R [S H] Nm.
  - destruct R as [|p R]; [split; [reflexivity|constructor]|]. specialize (H (p_action p)). cbn in H. rewrite str_eqb_refl in H. discriminate.
  - pose proof (H n) as Hb. cbn [kv_get] in Hb. destruct (str_eq_dec n n) as [_|]; [|congruence].
    destruct Hb as [_ (E & P1 & P2 & _)]. cbn [flat_map snd].
    destruct (IH (filter (fun p => negb (str_eqb (p_action p) n)) R)) as [Q1 Q2].
    + inversion_clear S as [|? ? S' F]. split; [exact S'|]. intros m. rewrite filter_filter. specialize (H m). cbn [kv_get] in H.
      destruct (str_eq_dec m n) as [->|Nmn].
      * assert (kv_get n r = None) as ->.
        { apply kv_get_none. intros I. apply in_map_iff in I as (e & E1 & I). rewrite Forall_forall in F. specialize (F e I).
          unfold klt in F. cbn in F. rewrite E1, str_ltb_irrefl in F. discriminate. }
        clear. induction R as [|p R IH]; [reflexivity|]. cbn [filter]. destruct (str_eqb (p_action p) n); cbn [negb andb]; exact IH.
      * assert (filter (fun p => negb (str_eqb (p_action p) n) && str_eqb (p_action p) m) R = filter (fun p => str_eqb (p_action p) m) R) as ->; [|exact H].
        apply filter_ext. intros p. destruct (str_eqb_spec (p_action p) m) as [->|]; [|apply andb_false_r].
        destruct (str_eqb_spec m n); [congruence|reflexivity].
    + rewrite Forall_forall in *. intros p I. apply filter_In in I as [I _]. exact (Nm p I).
    + pose proof (bkt_named K A E p_action n R P1 Nm) as Q. rewrite Forall_forall in Q, PK. split.
      * rewrite map_app, Q1. rewrite map_map. cbn [p_kind p_cost]. rewrite (Permutation_map _ P2), map_map.
        rewrite (map_ext_in _ (fun e : perf * N => (p_kind (fst e), p_cost (fst e)))).
        -- rewrite <- (map_map fst (fun p => (p_kind p, p_cost p))), (Permutation_map _ P1), <- map_app. apply Permutation_map.
           clear. induction R as [|p R IH]; [reflexivity|]. cbn. destruct (str_eqb (p_action p) n); cbn.
           ++ constructor. exact IH.
           ++ rewrite <- Permutation_middle. constructor. exact IH.
        -- intros e I. destruct (Q e I) as (_ & K1 & _ & K3). cbn [entry fst snd].
           rewrite key_prefix_key by apply PK, K1. rewrite dec_enc by exact K3. reflexivity.
      * apply Forall_app. split; [|exact Q2]. rewrite Forall_forall. intros x I. apply in_map_iff in I as (kv & <- & I).
        apply (Permutation_in _ P2) in I. apply in_map_iff in I as (e & <- & I). destruct (Q e I) as (_ & K1 & _).
        exists (snd e). cbn [p_action p_kind entry fst]. rewrite key_prefix_key by apply PK, K1. reflexivity.
Qed.

Lemma get_all : forall K A ops l, good_names K A -> Forall (lawful K A) ops -> ls_get (ls_run ops) [] [] = Some l ->
  Permutation (map (fun p => (p_kind p, p_cost p)) l) (map (fun p => (p_kind p, p_cost p)) (sp_run ops)) /\
  Forall (fun p => exists n, p_action p = p_kind p ++ "."%char :: print_N n) l.
Proof.
  intros K A ops l G L E. destruct (ls_run_inv K A ops G L) as [[I1 _] N]. unfold ls_get in E. cbn in E.
  destruct (ls_act (ls_run ops)) as [r|]; [|discriminate]. cbn [open_root] in I1. injection E as <-.
  exact (flat_all (sp_run ops) K A r (proj1 G) I1 N).
Qed.

(** ** Sums and averages *)

Definition group (k : str) (l : list perf) : list Z := map p_cost (filter (fun p => str_eqb (group_key p) k) l).

Lemma wrap64_add : forall a b, wrap64 (wrap64 a + b) = wrap64 (a + b).
Proof.
  intros a b. unfold wrap64. f_equal.
  replace ((a + 2 ^ 63) mod 2 ^ 64 - 2 ^ 63 + b + 2 ^ 63) with ((a + 2 ^ 63) mod 2 ^ 64 + b) by lia.
  rewrite Zplus_mod_idemp_l. f_equal. lia.
Qed.

Lemma tally_get : forall k c m n, kv_get n (tally k c m) =
  if str_eq_dec n k then Some (match kv_get k m with Some (t, x) => (wrap64 (t + c), x + 1) | None => (wrap64 c, 1) end)
  else kv_get n m.
Proof.
  intros k c m n. induction m as [|[k' [t x]] m IH]; cbn [tally kv_get].
  - destruct (str_eq_dec n k); reflexivity.
  - destruct (str_eq_dec k k') as [->|N]; cbn [kv_get].
    + destruct (str_eq_dec n k'); [|reflexivity]. reflexivity.
    + destruct (str_eq_dec n k') as [->|N2]; [destruct (str_eq_dec k' k); [congruence|reflexivity]|exact IH].
Qed.

Lemma tally_keys : forall k c m n, In n (map fst (tally k c m)) <-> n = k \/ In n (map fst m).
Proof.
  intros k c m n. induction m as [|[k' [t x]] m IH]; cbn [tally map fst In]; [intuition congruence|].
  destruct (str_eq_dec k k') as [->|N]; cbn [map fst In]; [intuition congruence|]. rewrite IH. intuition congruence.
Qed.

Lemma tally_nodup : forall k c m, NoDup (map fst m) -> NoDup (map fst (tally k c m)).
Proof.
  intros k c m. induction m as [|[k' [t x]] m IH]; cbn [tally map fst]; intros H; [repeat constructor; intros []|].
  inversion_clear H as [|? ? N H']. destruct (str_eq_dec k k') as [->|Nk]; cbn [map fst]; constructor; auto.
  rewrite tally_keys. intuition congruence.
Qed.

Lemma total_app : forall a b, total (a ++ b) = total a + total b.
Proof. induction a as [|x a IH]; intros b; cbn [app total fold_right]; [reflexivity|]. fold (total (a ++ b)). fold (total a). rewrite IH. lia. Qed.

Lemma tallies_inv : forall l, NoDup (map fst (tallies l)) /\
  forall k, kv_get k (tallies l) = match group k l with
                                    | [] => None
                                    | cs => Some (wrap64 (total cs), Z.of_nat (List.length cs))
                                    end.
Proof.
  induction l as [|p l [N IH]] using rev_ind; [split; [constructor|reflexivity]|].
  unfold tallies in *. rewrite fold_left_app. cbn [fold_left]. split; [apply tally_nodup, N|]. intros k.
  rewrite tally_get. unfold group in *. rewrite filter_app, map_app. cbn [filter].
  destruct (str_eq_dec k (group_key p)) as [->|Nk].
  - rewrite str_eqb_refl. cbn [map]. rewrite IH. destruct (map p_cost _) as [|c cs] eqn:E.
    + cbn [app total fold_right List.length]. rewrite Z.add_0_r. reflexivity.
    + rewrite wrap64_add, <- app_comm_cons. rewrite app_comm_cons, total_app, app_length. cbn [total fold_right List.length].
      rewrite Z.add_0_r. f_equal. f_equal. lia.
  - destruct (str_eqb_spec (group_key p) k); [congruence|]. cbn [map]. rewrite app_nil_r. apply IH.
Qed.

Lemma kv_get_iff : forall {V} k (v : V) l, NoDup (map fst l) -> (In (k, v) l <-> kv_get k l = Some v).
Proof.
  intros V k v l N. split; [|apply kv_get_in]. induction l as [|[k' v'] l IH]; cbn; [tauto|]. inversion_clear N as [|? ? N1 N2].
  intros [[= -> ->]|I]; [destruct (str_eq_dec k k); congruence|].
  destruct (str_eq_dec k k') as [->|]; [|auto]. exfalso. apply N1. change k' with (fst (k', v)). apply in_map, I.
Qed.

Definition dotless (p : perf) : Prop := ~ In "."%char (p_kind p) /\ ~ In "."%char (p_action p).

Lemma ungroup_key : forall p, dotless p -> ungroup (group_key p) = (p_kind p, p_action p).
Proof.
  intros p [H1 H2]. unfold ungroup, group_key. rewrite split_on_app by exact H1. rewrite split_on_notin by exact H2. reflexivity.
Qed.

Lemma group_key_inj : forall p q, dotless p -> dotless q -> group_key p = group_key q -> p_kind p = p_kind q /\ p_action p = p_action q.
Proof.
  intros p q [_ H1] [_ H2] E. apply app_dot_inj; assumption.
Qed.

Lemma group_costs : forall p l, dotless p -> Forall dotless l -> group (group_key p) l = costs (p_kind p) (p_action p) l.
Proof.
  intros p l D F. unfold group, costs. f_equal. apply filter_ext_in. intros q I. rewrite Forall_forall in F. specialize (F q I).
  destruct (str_eqb_spec (group_key q) (group_key p)) as [E|E].
  - destruct (group_key_inj q p F D E) as [-> ->]. rewrite !str_eqb_refl. reflexivity.
  - destruct (str_eqb_spec (p_kind q) (p_kind p)) as [E1|]; [|reflexivity].
    destruct (str_eqb_spec (p_action q) (p_action p)) as [E2|]; [|reflexivity]. exfalso. apply E. unfold group_key. congruence.
Qed.

(** Each row of a table made from the tallies. *)
Lemma table_correct : forall (f : Z * Z -> Z) l, Forall dotless l ->
  is_table (fun cs => f (wrap64 (total cs), Z.of_nat (List.length cs))) l
    (map (fun e : str * (Z * Z) => mk_perf (fst (ungroup (fst e))) (snd (ungroup (fst e))) (f (snd e))) (tallies l)).
Proof.
  intros f l D. destruct (tallies_inv l) as [N H].
  assert (W : forall e, In e (tallies l) -> exists p, In p l /\ fst e = group_key p /\
    snd e = (wrap64 (total (costs (p_kind p) (p_action p) l)), Z.of_nat (List.length (costs (p_kind p) (p_action p) l)))).
  { intros [k v] I. apply (kv_get_iff k v _ N) in I. rewrite H in I. destruct (group k l) as [|c cs] eqn:E; [discriminate|].
    assert (exists p, In p l /\ k = group_key p) as (p & Ip & ->).
    { assert (In c (group k l)) as J by (rewrite E; left; reflexivity). unfold group in J. apply in_map_iff in J as (p & _ & J).
      apply filter_In in J as [J1 J2]. apply str_eqb_eq in J2. exists p. split; [exact J1|congruence]. }
    exists p. split; [exact Ip|]. split; [reflexivity|]. rewrite Forall_forall in D. rewrite <- (group_costs p l (D p Ip)) by (rewrite Forall_forall; exact D).
    rewrite E. cbn [snd]. congruence. }
  split.
  - rewrite map_map. cbn [p_kind p_action].
    assert (forall e, In e (tallies l) -> fst e = fst (ungroup (fst e)) ++ "."%char :: snd (ungroup (fst e))) as U.
    { intros e I. destruct (W e I) as (p & Ip & -> & _). rewrite Forall_forall in D. rewrite ungroup_key by apply D, Ip. reflexivity. }
    clear - N U. induction (tallies l) as [|e m IH]; cbn [map]; constructor.
    + inversion_clear N as [|? ? N1 _]. intros I. apply in_map_iff in I as (e' & E & I). apply N1.
      rewrite (U e) by (left; reflexivity). injection E as E1 E2. rewrite <- E1, <- E2, <- U by (right; exact I). apply in_map, I.
    + inversion_clear N. apply IH; [assumption|]. intros e' I. apply U. right. exact I.
  - intros r. rewrite in_map_iff. split.
    + intros (e & <- & I). destruct (W e I) as (p & Ip & E1 & E2). cbn [p_kind p_action p_cost]. rewrite E1, E2.
      rewrite Forall_forall in D. rewrite ungroup_key by apply D, Ip. cbn [fst snd]. split; [|reflexivity]. exists p. auto.
    + intros ((p & Ip & E1 & E2) & E3). rewrite Forall_forall in D. pose proof (D p Ip) as Dp.
      exists (group_key p, (wrap64 (total (costs (p_kind p) (p_action p) l)), Z.of_nat (List.length (costs (p_kind p) (p_action p) l)))).
      cbn [fst snd]. rewrite ungroup_key by exact Dp. cbn [fst snd]. split; [rewrite E1, E2, <- E3; destruct r; reflexivity|].
      apply (kv_get_iff _ _ _ N). rewrite H, (group_costs p l Dp) by (rewrite Forall_forall; exact D).
      destruct (costs (p_kind p) (p_action p) l) as [|c cs] eqn:C; [|reflexivity]. exfalso.
      assert (In (p_cost p) (costs (p_kind p) (p_action p) l)) as J.
      { unfold costs. apply in_map, filter_In. split; [exact Ip|]. rewrite !str_eqb_refl. reflexivity. }
      rewrite C in J. destruct J.
Qed.

Lemma is_table_ext : forall f g l rows, (forall r, In r l -> f (costs (p_kind r) (p_action r) l) = g (costs (p_kind r) (p_action r) l)) ->
  is_table f l rows -> is_table g l rows.
Proof.
  intros f g l rows E [N H]. split; [exact N|]. intros r. rewrite H.
  split; intros ((p & I & E1 & E2) & C); (split; [exists p; auto|]); rewrite C, <- E1, <- E2; [|symmetry]; apply E, I.
Qed.

Lemma sum_table : forall l, Forall dotless l -> (forall p, In p l -> duration (total (costs (p_kind p) (p_action p) l))) ->
  is_table total l (sum_of l).
Proof.
  intros l D R. eapply is_table_ext; [|exact (table_correct fst l D)]. intros r I. cbn [fst]. apply wrap64_id, R, I.
Qed.

Lemma average_table : forall l, Forall dotless l -> (forall p, In p l -> duration (total (costs (p_kind p) (p_action p) l))) ->
  is_table mean l (average_of l).
Proof.
  intros l D R. eapply is_table_ext; [|exact (table_correct (fun x => Z.quot (fst x) (snd x)) l D)]. intros r I. cbn [fst snd].
  unfold mean. rewrite wrap64_id by apply R, I. reflexivity.
Qed.

(** ** The shared store *)

Lemma to_int64_unit : forall t, to_int64 (t ++ ["s"%char]) = 0.
Proof.
  intros t.
  assert (P : forall t, parse_digits (t ++ ["s"%char]) = None).
  { clear t. intros t. unfold parse_digits. destruct (t ++ ["s"%char]) as [|c r] eqn:E; [reflexivity|]. rewrite <- E. clear c r E.
    assert (str_to_uint (t ++ ["s"%char]) = None) as ->; [|reflexivity].
    induction t as [|c t IH]; [reflexivity|]. cbn [app str_to_uint]. rewrite IH. destruct (digit_of c); reflexivity. }
  unfold to_int64. destruct (t ++ ["s"%char]) as [|c r] eqn:E; [reflexivity|].
  assert (parse_digits (c :: r) = None) as Q by (rewrite <- E; apply P).
  assert (parse_digits r = None) as Q2.
  { destruct t as [|d t]; cbn in E; injection E as _ <-; [reflexivity|apply P]. }
  rewrite Q, Q2. clear. destruct c as [[] [] [] [] [] [] [] []]; reflexivity.
Qed.

Section EtcdProofs.
  Variable dur_string : Z -> str.
  Variable max_size : Z.
  Variable allowed : list str.
  Variable lease : nat -> str.
  Let put := es_put dur_string max_size allowed.
  Let step := es_step dur_string max_size allowed lease.
  Let run := fun ops => es_kv (es_run dur_string max_size allowed lease ops es_new).

  Lemma kv_put_from : forall {V} k (v : V) l x, In x (kv_put k v l) -> x = (k, v) \/ In x l.
  Proof.
    intros V k v l. induction l as [|[a b] l IH]; cbn; intros x X; [destruct X as [<-|[]]; auto|].
    destruct (str_eq_dec k a); [destruct X as [<-|X]; auto|].
    destruct (str_ltb k a); [destruct X as [<-|X]; auto|].
    destruct X as [<-|X]; [auto|]. destruct (IH x X); auto.
  Qed.

  Let puts (l : list (perf * Z)) (kv : ekv) : ekv :=
    fold_left (fun kv (pt : perf * Z) => kv_put (ekey (fst pt) (snd pt)) (dur_string (p_cost (fst pt))) kv) l kv.

  Lemma puts_from : forall l kv x, In x (puts l kv) -> (exists p t, x = (ekey p t, dur_string (p_cost p))) \/ In x kv.
  Proof.
    unfold puts. induction l as [|[p t] l IH]; intros kv x H; [right; exact H|]. cbn [fold_left fst snd] in H. apply IH in H as [H|H].
    - left. exact H.
    - apply kv_put_from in H as [->|H]; [left; exists p, t; reflexivity|right; exact H].
  Qed.

  Lemma remove_old_from : forall limit kv x, In x (remove_old limit kv) -> In x kv.
  Proof.
    intros limit kv x. unfold remove_old. destruct (firstn _ _) as [|[f v] l]; [auto|]. intros I. apply filter_In in I as [I _]. exact I.
  Qed.

  Lemma check_size_from : forall lock seen n kv x, In x (check_size max_size lock seen n kv) -> In x kv.
  Proof.
    intros lock seen n kv x. unfold check_size. destruct (0 <? _); [|auto]. intros H. apply filter_In in H as [H K].
    apply remove_old_from in H. apply kv_put_from in H as [->|H]; [|exact H]. cbn [fst] in K. rewrite str_eqb_refl in K. discriminate K.
  Qed.

  Lemma clear_from : forall acts kind kv x,
    In x (fold_left (fun kv a => filter (fun e : str * str => negb (has_prefix (ekey_prefix a kind) (fst e))) kv) acts kv) -> In x kv.
  Proof.
    induction acts as [|a acts IH]; intros kind kv x H; [exact H|]. cbn [fold_left] in H. apply IH in H. apply filter_In in H as [H _]. exact H.
  Qed.

  (** What a step does to the pairs. *)
  Lemma step_kv : forall P : ekv -> Prop,
    (forall lock seen n kv, P kv -> P (check_size max_size lock seen n kv)) ->
    (forall ts al kv, P kv -> P (snd (put_txn dur_string ts al kv))) ->
    (forall k a kv, P kv -> P (snd (es_clear allowed kv k a))) ->
    forall s o, P (es_kv s) -> P (es_kv (step s o)).
  Proof.
    intros P A B C s o H. unfold step. destruct o as [i l|i|i seen|i ts|i|k a]; cbn [es_step].
    - destruct (way_of i (es_ways s)); exact H.
    - destruct (way_of i (es_ways s)) as [[j al ph olds]|]; [|exact H]. destruct ph; try exact H. destruct olds; [|exact H].
      destruct (first_keyed _ _); exact H.
    - destruct (way_of i (es_ways s)) as [[j al ph olds]|]; [|exact H]. destruct ph; try exact H. cbn [es_kv]. apply A, H.
    - destruct (way_of i (es_ways s)) as [[j al ph olds]|]; [|exact H]. destruct ph; try exact H. cbn [es_kv]. apply B, H.
    - exact H.
    - cbn [es_kv]. apply C, H.
  Qed.

  Lemma run_kv : forall P : ekv -> Prop, P [] ->
    (forall lock seen n kv, P kv -> P (check_size max_size lock seen n kv)) ->
    (forall ts al kv, P kv -> P (snd (put_txn dur_string ts al kv))) ->
    (forall k a kv, P kv -> P (snd (es_clear allowed kv k a))) ->
    forall ops, P (run ops).
  Proof.
    intros P Z A B C ops. unfold run, es_run. induction ops as [|o ops IH] using rev_ind; [exact Z|].
    rewrite fold_left_app. cbn [fold_left]. apply step_kv; assumption.
  Qed.

  (** Whatever is stored was put as the text of a duration. *)
  Lemma run_values : forall ops e, In e (run ops) -> exists p t, e = (ekey p t, dur_string (p_cost p)).
  Proof.
    apply (run_kv (fun kv => forall e, In e kv -> exists p t, e = (ekey p t, dur_string (p_cost p)))).
    - intros e [].
    - intros lock seen n kv H e I. apply check_size_from in I. exact (H e I).
    - intros ts al kv H e I. unfold put_txn in I. destruct (thens _); cbn [snd] in I; [|exact (H e I)].
      apply puts_from in I as [I|I]; [exact I|exact (H e I)].
    - intros k a kv H e I. unfold es_clear in I. destruct (thens _); cbn [snd] in I; [apply clear_from in I|]; exact (H e I).
  Qed.

  Lemma get_zero : forall ops kind action p, (forall c, exists t, dur_string c = t ++ ["s"%char]) ->
    In p (es_get allowed (run ops) kind action) -> p_cost p = 0.
  Proof.
    intros ops kind action p D I. unfold es_get in I. apply in_flat_map in I as (a & _ & I). apply in_flat_map in I as (e & J & I).
    apply filter_In in J as [J _]. destruct (run_values ops e J) as (q & t & ->). cbn [fst snd] in I.
    destruct (after_slash _); [|destruct I]. destruct I as [<-|[]]. cbn [p_cost]. destruct (D (p_cost q)) as (x & ->). apply to_int64_unit.
  Qed.

  (** What a successful put leaves. *)
  Lemma put_stored : forall lock seen ts l kv kv', put lock seen ts l kv = (ROk, kv') ->
    forall p t, In (p, t) (combine (filter (fun p => contains (p_action p) allowed) l) ts) ->
    kv_get (ekey p t) kv' = Some (dur_string (p_cost p)).
  Proof.
    intros lock seen ts l kv kv' H p t I. unfold put, es_put in H. destruct (before_lock kv); [|discriminate H].
    unfold put_txn in H. destruct (thens _) eqn:E; [|discriminate].
    unfold thens, allows in E. apply Nat.leb_le in E. injection H as <-. unfold allows.
    assert (combine (filter (fun p => contains (p_action p) allowed) l) ts = [(p, t)]) as ->.
    { assert (List.length (combine (filter (fun p => contains (p_action p) allowed) l) ts) <= 1)%nat as L by (rewrite combine_length; lia).
      destruct (combine _ _) as [|x [|y r]]; [destruct I|destruct I as [->|[]]; reflexivity|cbn in L; lia]. }
    cbn [fold_left fst snd]. apply kv_get_put_eq.
  Qed.

  (** Two measurements at once: a panic, and nothing is put. *)
  Lemma put_panics : forall lock seen ts l kv, (2 <= List.length (filter (fun p => contains (p_action p) allowed) l))%nat ->
    fst (put lock seen ts l kv) <> ROk /\ (before_lock kv = [] -> fst (put lock seen ts l kv) = RPanic) /\
    forall e, In e (snd (put lock seen ts l kv)) -> In e kv.
  Proof.
    intros lock seen ts l kv H. unfold put, es_put, put_txn, thens.
    destruct (Nat.leb_spec (List.length (allows allowed l)) 1) as [L|L]; [unfold allows in L; lia|].
    destruct (before_lock kv); cbn [fst snd].
    - split; [discriminate|]. split; [reflexivity|]. intros e I. apply check_size_from in I. exact I.
    - split; [discriminate|]. split; [discriminate|]. intros x I. exact I.
  Qed.

  Lemma clear_panics : forall kv kind, (2 <= List.length allowed)%nat -> es_clear allowed kv kind [] = (RPanic, kv).
  Proof.
    intros kv kind H. unfold es_clear, asked, thens. cbn [str_eqb]. destruct (str_eqb_spec [] []); [|congruence].
    destruct (Nat.leb_spec (List.length allowed) 1); [lia|reflexivity].
  Qed.

  (** ** A collector on the shared store *)

  Lemma takes_app : forall l r, takes allowed l = false -> takes allowed (l ++ r) = false.
  Proof.
    intros l r H. unfold takes, thens, allows in *. apply Nat.leb_gt in H. apply Nat.leb_gt. rewrite filter_app, app_length. lia.
  Qed.

  Lemma shared_gone : forall cf es, shared_run allowed cf es Gone = Gone.
  Proof. intros cf es. unfold shared_run. induction es as [|e es IH]; [reflexivity|exact IH]. Qed.

  (** A collector that waits goes on waiting; calls pile up. *)
  Lemma shared_waits : forall cf es c, shared_run allowed cf es (Waits c) =
    Waits (mk_coll (cl_mem c) (cl_saved c) (cl_pending c ++ flat_map (fun e => match e with Own (EAsync p) => [p] | _ => [] end) es)).
  Proof.
    intros cf es. induction es as [|e es IH]; intros c.
    - cbn. rewrite app_nil_r. destruct c. reflexivity.
    - change (shared_run allowed cf (e :: es) (Waits c)) with (shared_run allowed cf es (shared_step allowed cf (Waits c) e)).
      destruct e as [[p|i ok|due ok|ok]|]; cbn [shared_step flat_map app]; try apply IH.
      rewrite IH. cbn [cstep cl_mem cl_saved cl_pending]. rewrite <- app_assoc. reflexivity.
  Qed.

  (** One step of a collector that lives: what is saved. *)
  Lemma live_step : forall cf there c e,
    match shared_step allowed cf (Live there c) e with
    | Gone => there = false
    | Waits c' => there = true /\ cl_saved c' = cl_saved c
    | Live there' c' =>
        cl_saved c' = cl_saved c /\ (there = true -> there' = true) \/
        there = false /\ exists l, takes allowed l = true /\ there' = stores allowed l /\ cl_saved c' = cl_saved c ++ l
    end.
  Proof.
    intros cf there c e.
    assert (K : forall c0 after, cl_saved c0 = cl_saved c -> cl_saved after = cl_saved c ++ cl_mem c0 ->
      match flush_to allowed there c0 after with
      | Gone => there = false
      | Waits c' => there = true /\ cl_saved c' = cl_saved c
      | Live there' c' =>
          cl_saved c' = cl_saved c /\ (there = true -> there' = true) \/
          there = false /\ exists l, takes allowed l = true /\ there' = stores allowed l /\ cl_saved c' = cl_saved c ++ l
      end).
    { intros c0 after A B. unfold flush_to. destruct there; [split; [reflexivity|exact A]|].
      destruct (takes allowed (cl_mem c0)) eqn:T; [|reflexivity]. right. split; [reflexivity|]. exists (cl_mem c0). auto. }
    destruct e as [[p|i ok|due ok|ok]|]; cbn [shared_step].
    - left. cbn [cstep cl_saved]. auto.
    - destruct (nth_error (cl_pending c) i) as [p|] eqn:Ep; [|left; auto].
      destruct (Nat.ltb_spec (pc_max cf) (List.length (cl_mem c ++ [p]))) as [L|L]; cbn [andb].
      + destruct (pc_flush cf) eqn:F.
        * apply K; cbn [cl_saved cl_mem cstep]; [reflexivity|]. rewrite Ep. unfold cput. cbn [cl_mem cl_saved cl_pending].
          rewrite F. destruct (Nat.ltb_spec (pc_max cf) (List.length (cl_mem c ++ [p]))); [|lia]. reflexivity.
        * left. cbn [cstep]. rewrite Ep. unfold cput. cbn [cl_mem cl_saved cl_pending]. rewrite F.
          destruct (_ <? _)%nat; cbn [cl_saved]; auto.
      + left. cbn [cstep]. rewrite Ep. unfold cput. cbn [cl_mem cl_saved cl_pending].
        destruct (Nat.ltb_spec (pc_max cf) (List.length (cl_mem c ++ [p]))); [lia|]. cbn [cl_saved]. auto.
    - destruct due; [|left; auto]. apply K; reflexivity.
    - apply K; reflexivity.
    - left. auto.
  Qed.

  (** With a measurement in etcd nothing is saved any more. *)
  Lemma shared_stuck : forall cf es c,
    match shared_run allowed cf es (Live true c) with
    | Gone => False
    | Waits c' => cl_saved c' = cl_saved c
    | Live there c' => there = true /\ cl_saved c' = cl_saved c
    end.
  Proof.
    intros cf es. induction es as [|e es IH]; intros c; [cbn; auto|].
    change (shared_run allowed cf (e :: es) (Live true c)) with (shared_run allowed cf es (shared_step allowed cf (Live true c) e)).
    pose proof (live_step cf true c e) as K. destruct (shared_step allowed cf (Live true c) e) as [t c1|c1|]; [| |discriminate K].
    - destruct K as [[K T]|[K _]]; [|discriminate K]. rewrite (T eq_refl). specialize (IH c1).
      destruct (shared_run allowed cf es (Live true c1)); [|congruence|exact IH]. destruct IH as [-> IH]. split; [reflexivity|congruence].
    - destruct K as [_ K]. rewrite shared_waits. cbn [cl_saved]. exact K.
  Qed.

  (** An API server stores one measurement at most. *)
  Lemma shared_once : forall cf es,
    match shared_run allowed cf es (Live false coll_new) with
    | Gone => True
    | Waits c => (List.length (allows allowed (cl_saved c)) <= 1)%nat
    | Live there c => (List.length (allows allowed (cl_saved c)) <= 1)%nat /\ (there = false -> allows allowed (cl_saved c) = [])
    end.
  Proof.
    intros cf es. induction es as [|e es IH] using rev_ind; [cbn; split; [lia|reflexivity]|].
    unfold shared_run in *. rewrite fold_left_app. cbn [fold_left].
    destruct (fold_left (shared_step allowed cf) es (Live false coll_new)) as [t c|c|].
    - pose proof (live_step cf t c e) as K. destruct IH as [I1 I2].
      destruct (shared_step allowed cf (Live t c) e) as [t' c'|c'|]; [|destruct K as [_ K]; rewrite K; exact I1|exact I].
      destruct K as [[K T]|(-> & l & T & -> & K)]; rewrite K.
      + split; [exact I1|]. intros ->. destruct t; [discriminate (T eq_refl)|]. apply I2. reflexivity.
      + unfold allows in *. rewrite filter_app, (I2 eq_refl). cbn [app]. unfold takes, thens, stores, allows in *. apply Nat.leb_le in T.
        split; [exact T|]. intros E. apply Nat.leb_gt in E. destruct (filter _ l); [reflexivity|cbn in E; lia].
    - destruct e as [[p|i ok|due ok|ok]|]; cbn [shared_step cstep cl_saved]; exact IH.
    - exact I.
  Qed.

  (** Two measurements in memory: saved is what was saved before. *)
  Lemma shared_doomed : forall cf es there c, pc_flush cf = true -> takes allowed (cl_mem c) = false ->
    match shared_run allowed cf es (Live there c) with
    | Gone => True
    | Waits c' => cl_saved c' = cl_saved c /\ exists more, cl_mem c' = cl_mem c ++ more
    | Live _ c' => cl_saved c' = cl_saved c /\ exists more, cl_mem c' = cl_mem c ++ more
    end.
  Proof.
    intros cf es there c F. revert there c. induction es as [|e es IH]; intros there c T.
    - cbn. split; [reflexivity|exists []; symmetry; apply app_nil_r].
    - change (shared_run allowed cf (e :: es) (Live there c)) with (shared_run allowed cf es (shared_step allowed cf (Live there c) e)).
      assert (K : shared_step allowed cf (Live there c) e = Gone \/
                  (exists c1, shared_step allowed cf (Live there c) e = Waits c1 /\ cl_saved c1 = cl_saved c /\ exists more, cl_mem c1 = cl_mem c ++ more) \/
                  exists t1 c1, shared_step allowed cf (Live there c) e = Live t1 c1 /\ cl_saved c1 = cl_saved c /\ exists more, cl_mem c1 = cl_mem c ++ more).
      { assert (nil_more : exists more, cl_mem c = cl_mem c ++ more) by (exists []; symmetry; apply app_nil_r).
        destruct e as [[p|i ok|due ok|ok]|]; cbn [shared_step].
        - right; right. do 2 eexists. split; [reflexivity|]. cbn [cstep cl_saved cl_mem]. split; [reflexivity|exact nil_more].
        - destruct (nth_error (cl_pending c) i) as [p|] eqn:Ep.
          + rewrite F, andb_true_r. destruct (_ <? _)%nat eqn:L.
            * unfold flush_to. cbn [cl_mem]. rewrite (takes_app _ [p] T). destruct there; [|left; reflexivity].
              right; left. eexists. split; [reflexivity|]. cbn [cl_saved cl_mem]. split; [reflexivity|exists [p]; reflexivity].
            * right; right. do 2 eexists. split; [reflexivity|].
              cbn [cstep]. rewrite Ep. unfold cput. cbn [cl_mem cl_saved cl_pending]. rewrite L.
              cbn [cl_mem cl_saved]. split; [reflexivity|exists [p]; reflexivity].
          + right; right. do 2 eexists. split; [reflexivity|]. split; [reflexivity|exact nil_more].
        - destruct due.
          + unfold flush_to. rewrite T. destruct there; [|left; reflexivity]. right; left. eexists. split; [reflexivity|]. split; [reflexivity|exact nil_more].
          + right; right. do 2 eexists. split; [reflexivity|]. split; [reflexivity|exact nil_more].
        - unfold flush_to. rewrite T. destruct there; [|left; reflexivity]. right; left. eexists. split; [reflexivity|]. split; [reflexivity|exact nil_more].
        - right; right. do 2 eexists. split; [reflexivity|]. split; [reflexivity|exact nil_more]. }
      destruct K as [K|[(c1 & K & K1 & m & K2)|(t1 & c1 & K & K1 & m & K2)]]; rewrite K; [rewrite shared_gone; exact I| |].
      + rewrite shared_waits. cbn [cl_saved cl_mem]. split; [exact K1|exists m; exact K2].
      + specialize (IH t1 c1). rewrite K2 in IH. specialize (IH (takes_app _ m T)).
        destruct (shared_run allowed cf es (Live t1 c1)) as [t2 c'|c'|]; [| |exact I];
          destruct IH as [I1 (m' & I2)]; (split; [congruence|]; exists (m ++ m'); rewrite I2, app_assoc; reflexivity).
  Qed.

  Lemma shared_tick : forall cf es c ok, takes allowed (cl_mem c) = false ->
    shared_run allowed cf (Own (ETick true ok) :: es) (Live false c) = Gone.
  Proof.
    intros cf es c ok T. unfold shared_run. cbn [fold_left shared_step]. unfold flush_to. rewrite T.
    change (shared_run allowed cf es Gone = Gone). apply shared_gone.
  Qed.

  Lemma ekey_inj : forall p t u, 0 <= t -> 0 <= u -> ekey p t = ekey p u -> t = u.
  Proof.
    intros p t u Ht Hu E. unfold ekey in E. apply app_inv_head in E. injection E as E.
    rewrite !print_Z_nonneg in E by assumption. apply print_N_inj in E. lia.
  Qed.

  (** [removeOldKeys] leaves one key more than it should. *)
  Lemma remove_old_count : forall limit kv, StronglySorted klt kv -> Forall (fun e => has_prefix etcd_prefix (fst e) = true) kv ->
    0 < limit <= Z.of_nat (List.length kv) ->
    Z.of_nat (List.length (remove_old limit kv)) = Z.of_nat (List.length kv) - (limit - 1).
  Proof.
    intros limit kv S F R. unfold remove_old.
    assert (with_prefix etcd_prefix kv = kv) as ->.
    { clear - F. unfold with_prefix. induction F as [|e kv E F IH]; [reflexivity|]. cbn [filter]. rewrite E, IH. reflexivity. }
    assert (exists n, Z.to_nat limit = Datatypes.S n) as (n & En) by (exists (Z.to_nat limit - 1)%nat; lia). rewrite En.
    assert (n < List.length kv)%nat as Ln by lia.
    destruct (nth_error kv n) as [x|] eqn:Ex; [|apply nth_error_None in Ex; lia].
    apply nth_error_split in Ex as (l1 & l2 & -> & E1).
    assert (firstn (Datatypes.S n) (l1 ++ x :: l2) = l1 ++ [x]) as ->.
    { rewrite firstn_app, E1. replace (Datatypes.S n - n)%nat with 1%nat by lia. rewrite firstn_all2 by lia. reflexivity. }
    destruct (l1 ++ [x]) as [|[fk fv] rest] eqn:EL; [destruct l1; discriminate|].
    assert (List.last ((fk, fv) :: rest) (fk, []) = x) as -> by (rewrite <- EL; apply last_last).
    assert (SP : StronglySorted klt l1 /\ (forall a, In a l1 -> str_ltb (fst a) (fst x) = true) /\ (forall a, In a l2 -> str_ltb (fst x) (fst a) = true)).
    { clear - S. induction l1 as [|a l1 IH]; cbn [app] in S.
      - inversion_clear S as [|? ? S' F]. split; [constructor|]. split; [intros a []|]. rewrite Forall_forall in F. exact F.
      - inversion_clear S as [|? ? S' F]. destruct (IH S') as (A & B & C). rewrite Forall_forall in F. split; [|split].
        + constructor; [exact A|]. rewrite Forall_forall. intros b I. apply F, in_or_app. left. exact I.
        + intros b [<-|I]; [apply F, in_or_app; right; left; reflexivity|exact (B b I)].
        + exact C. }
    destruct SP as (S1 & B1 & B2).
    assert (FK : forall a, In a (l1 ++ x :: l2) -> str_ltb (fst a) fk = false).
    { intros a I. assert (fk = fst (List.hd x (l1 ++ [x]))) as Hf by (rewrite EL; reflexivity).
      destruct l1 as [|y l1]; cbn in Hf; subst fk; destruct I as [<-|I]; try apply str_ltb_irrefl.
      - destruct (str_ltb (fst a) (fst x)) eqn:C; [|reflexivity]. pose proof (str_ltb_trans _ _ _ C (B2 a I)) as T.
        rewrite str_ltb_irrefl in T. discriminate.
      - inversion_clear S as [|? ? S' F']. rewrite Forall_forall in F'. specialize (F' a I). unfold klt in F'.
        destruct (str_ltb (fst a) (fst y)) eqn:C; [|reflexivity]. pose proof (str_ltb_trans _ _ _ C F') as T.
        rewrite str_ltb_irrefl in T. discriminate. }
    rewrite filter_app.
    assert (filter (fun e : str * str => str_ltb (fst e) fk || negb (str_ltb (fst e) (fst x))) l1 = []) as ->.
    { destruct (filter _ l1) as [|z zs] eqn:Z; [reflexivity|]. exfalso.
      assert (In z (filter (fun e : str * str => str_ltb (fst e) fk || negb (str_ltb (fst e) (fst x))) l1)) as I by (rewrite Z; left; reflexivity).
      apply filter_In in I as [I C]. rewrite (B1 z I), FK in C by (apply in_or_app; left; exact I). discriminate. }
    assert (filter (fun e : str * str => str_ltb (fst e) fk || negb (str_ltb (fst e) (fst x))) (x :: l2) = x :: l2) as ->.
    { apply filter_id. intros a [<-|I].
      - rewrite str_ltb_irrefl. apply orb_true_r.
      - destruct (str_ltb (fst a) (fst x)) eqn:C; [|apply orb_true_r]. pose proof (str_ltb_trans _ _ _ C (B2 a I)) as T.
        rewrite str_ltb_irrefl in T. discriminate. }
    rewrite !app_length in *. cbn [app List.length] in *. lia.
  Qed.

  Lemma puts_sorted : forall l kv, StronglySorted klt kv -> StronglySorted klt (puts l kv).
  Proof. unfold puts. induction l as [|e l IH]; intros kv S; [exact S|]. cbn [fold_left]. apply IH, kv_put_sorted, S. Qed.

  Lemma check_size_sorted : forall lock seen n kv, StronglySorted klt kv -> StronglySorted klt (check_size max_size lock seen n kv).
  Proof.
    intros lock seen n kv H. unfold check_size. destruct (0 <? _); [|exact H]. apply sorted_filter. unfold remove_old.
    destruct (firstn _ _) as [|[f v] r]; [|apply sorted_filter]; apply kv_put_sorted, H.
  Qed.

  Lemma run_sorted : forall ops, StronglySorted klt (run ops).
  Proof.
    apply (run_kv (fun kv => StronglySorted klt kv)).
    - constructor.
    - intros. apply check_size_sorted. assumption.
    - intros ts al kv H. unfold put_txn. destruct (thens _); cbn [snd]; [apply puts_sorted|]; exact H.
    - intros k a kv H. unfold es_clear. destruct (thens _); cbn [snd]; [|exact H]. generalize (asked allowed a). intros acts. revert kv H.
      induction acts as [|b acts IHa]; intros kv S; [exact S|]. cbn [fold_left]. apply IHa, sorted_filter, S.
  Qed.

  Lemma run_prefixed : forall ops, Forall (fun e => has_prefix etcd_prefix (fst e) = true) (run ops).
  Proof.
    intros ops. rewrite Forall_forall. intros e I. destruct (run_values ops e I) as (p & t & ->). cbn [fst].
    apply has_prefix_iff. unfold ekey, ekey_prefix. rewrite <- app_assoc. eexists. reflexivity.
  Qed.

  Lemma kv_put_length : forall {V} k (v : V) l, (List.length (kv_put k v l) <= S (List.length l))%nat.
  Proof.
    intros V k v l. induction l as [|[k' v'] l IH]; cbn; [lia|]. destruct (str_eq_dec k k'); cbn; [lia|].
    destruct (str_ltb k k'); cbn; lia.
  Qed.

  Lemma puts_length : forall l kv, (List.length (puts l kv) <= List.length kv + List.length l)%nat.
  Proof.
    unfold puts. induction l as [|[p t] l IH]; intros kv; cbn [fold_left List.length fst snd]; [lia|].
    pose proof (IH (kv_put (ekey p t) (dur_string (p_cost p)) kv)). pose proof (kv_put_length (ekey p t) (dur_string (p_cost p)) kv). lia.
  Qed.

  (** When the count is right, two pairs too many stay at most. *)
  Lemma put_prefix : forall lease (kv : ekv), Forall (fun e : str * str => has_prefix etcd_prefix (fst e) = true) kv ->
    Forall (fun e : str * str => has_prefix etcd_prefix (fst e) = true) (kv_put (etcd_prefix ++ "/"%char :: lease) [] kv).
  Proof.
    intros le kv F. rewrite Forall_forall in *. intros e I. apply kv_put_from in I as [->|I]; [|exact (F e I)].
    cbn [fst]. apply has_prefix_iff. eexists. reflexivity.
  Qed.

  Lemma kv_put_grows : forall {V} k (v : V) l, (List.length l <= List.length (kv_put k v l))%nat.
  Proof.
    intros V k v l. induction l as [|[k' v'] l IH]; cbn; [lia|]. destruct (str_eq_dec k k'); cbn; [lia|].
    destruct (str_ltb k k'); cbn; lia.
  Qed.

  Lemma filter_shorter : forall {A} (f : A -> bool) l, (List.length (filter f l) <= List.length l)%nat.
  Proof. intros A f l. induction l as [|x l IH]; [apply le_n|]. cbn [filter]. destruct (f x); cbn [List.length]; lia. Qed.

  Lemma check_limit : forall ops le seen n, es_size seen (run ops) [] = Z.of_nat (List.length (run ops)) ->
    Z.of_nat n <= max_size ->
    Z.of_nat (List.length (check_size max_size (etcd_prefix ++ "/"%char :: le) seen n (run ops))) + Z.of_nat n <= max_size + 2.
  Proof.
    intros ops le seen n C A. unfold check_size. rewrite C.
    destruct (Z.ltb_spec 0 (Z.of_nat (List.length (run ops)) + Z.of_nat n - max_size)) as [L|L]; [|lia].
    set (lock := etcd_prefix ++ "/"%char :: le). set (kv1 := kv_put lock [] (run ops)).
    assert (P : (List.length kv1 <= S (List.length (run ops)))%nat) by apply kv_put_length.
    assert (G : (List.length (run ops) <= List.length kv1)%nat) by apply kv_put_grows.
    assert (R : Z.of_nat (List.length (remove_old (Z.of_nat (List.length (run ops)) + Z.of_nat n - max_size) kv1)) =
                Z.of_nat (List.length kv1) - (Z.of_nat (List.length (run ops)) + Z.of_nat n - max_size - 1)).
    { apply remove_old_count; [apply kv_put_sorted, run_sorted|apply put_prefix, run_prefixed|]. clear - A L G. unfold ekv, str in *. lia. }
    pose proof (filter_shorter (fun e : str * str => negb (str_eqb (fst e) lock))
      (remove_old (Z.of_nat (List.length (run ops)) + Z.of_nat n - max_size) kv1)) as Q. clear - R Q P A. unfold ekv, str in *. lia.
  Qed.

  (** ** Waiting for the lock *)

  Lemma find_app : forall {A} (f : A -> bool) l r, find f (l ++ r) = match find f l with Some x => Some x | None => find f r end.
  Proof. intros A f l r. induction l as [|x l IH]; [reflexivity|]. cbn [app find]. destruct (f x); [reflexivity|exact IH]. Qed.

  Lemma way_of_map : forall i f ws, (forall w, w_id (f w) = w_id w) -> way_of i (map f ws) = option_map f (way_of i ws).
  Proof.
    intros i f ws H. unfold way_of. induction ws as [|w ws IH]; [reflexivity|]. cbn [map find]. rewrite H.
    destruct (w_id w =? i)%nat; [reflexivity|exact IH].
  Qed.

  Lemma way_of_without : forall i j ws, i <> j -> way_of i (without j ws) = way_of i ws.
  Proof.
    intros i j ws N. unfold way_of, without. induction ws as [|w ws IH]; [reflexivity|]. cbn [filter find].
    destruct (Nat.eqb_spec (w_id w) j) as [E|E]; cbn [negb find].
    - destruct (Nat.eqb_spec (w_id w) i); [congruence|exact IH].
    - destruct (w_id w =? i)%nat; [reflexivity|exact IH].
  Qed.

  Lemma set_phase_id : forall i ph w, w_id (if (w_id w =? i)%nat then mk_way (w_id w) (w_items w) ph (w_olds w) else w) = w_id w.
  Proof. intros i ph w. destruct (_ =? _)%nat; reflexivity. Qed.

  Lemma way_of_set : forall i j ph ws, i <> j -> way_of i (set_phase j ph ws) = way_of i ws.
  Proof.
    intros i j ph ws N. unfold set_phase. rewrite way_of_map by (intros; apply set_phase_id).
    destruct (way_of i ws) as [w|] eqn:E; [|reflexivity]. cbn [option_map]. unfold way_of in E. apply find_some in E as [_ E].
    apply Nat.eqb_eq in E. destruct (Nat.eqb_spec (w_id w) j); [congruence|reflexivity].
  Qed.

  Definition held_up (i : nat) (k : str) (s : estate) : Prop :=
    exists w, way_of i (es_ways s) = Some w /\ w_phase w = WWaits /\ In k (w_olds w).

  Lemma held_up_step : forall s o i k, held_up i k s -> o <> SEnd i -> In k (map fst (es_kv (step s o))) -> held_up i k (step s o).
  Proof.
    intros s o i k (w & W & P & O) E. unfold step.
    assert (ST : forall kv, In k (map fst kv) -> In k (w_olds (still kv w))).
    { intros kv J. cbn [still w_olds]. apply filter_In. split; [exact O|]. apply existsb_exists. exists k. split; [exact J|apply str_eqb_refl]. }
    destruct o as [j l|j|j seen|j ts|j|kk a]; cbn [es_step].
    - destruct (way_of j (es_ways s)) eqn:J; intros K; [exists w; auto|]. exists w. cbn [es_ways]. unfold way_of in *. rewrite find_app, W. auto.
    - destruct (way_of j (es_ways s)) as [[j' al ph olds]|] eqn:J; intros K; [|exists w; auto].
      destruct ph; try (exists w; auto; fail). destruct olds; [|exists w; auto]. destruct (first_keyed _ _); [|exists w; auto].
      destruct (Nat.eq_dec i j) as [->|N]; [rewrite J in W; injection W as <-; destruct O|].
      exists w. cbn [es_ways]. rewrite way_of_set by exact N. auto.
    - destruct (way_of j (es_ways s)) as [[j' al ph olds]|] eqn:J; intros K; [|exists w; auto].
      destruct ph; try (exists w; auto; fail).
      destruct (Nat.eq_dec i j) as [->|N]; [rewrite J in W; injection W as <-; discriminate P|].
      cbn [es_kv] in K. eexists. cbn [es_ways]. rewrite way_of_map by reflexivity. rewrite way_of_set by exact N. rewrite W.
      split; [reflexivity|]. split; [exact P|apply ST, K].
    - destruct (way_of j (es_ways s)) as [[j' al ph olds]|] eqn:J; intros K; [|exists w; auto].
      destruct ph; try (exists w; auto; fail).
      destruct (Nat.eq_dec i j) as [->|N]; [rewrite J in W; injection W as <-; discriminate P|].
      exists w. cbn [es_ways]. rewrite way_of_without by exact N. auto.
    - intros K. exists w. cbn [es_ways]. rewrite way_of_without by congruence. auto.
    - intros K. cbn [es_kv] in K. eexists. cbn [es_ways]. rewrite way_of_map by reflexivity. rewrite W.
      split; [reflexivity|]. split; [exact P|apply ST, K].
  Qed.

  Lemma held_up_run : forall ops s i k, held_up i k s -> ~ In (SEnd i) ops ->
    (forall pre post, ops = pre ++ post -> In k (map fst (es_kv (es_run dur_string max_size allowed lease pre s)))) ->
    held_up i k (es_run dur_string max_size allowed lease ops s).
  Proof.
    induction ops as [|o ops IH]; intros s i k H E K; [exact H|].
    change (held_up i k (es_run dur_string max_size allowed lease ops (step s o))). apply IH.
    - apply held_up_step; [exact H|intros ->; apply E; left; reflexivity|]. exact (K [o] ops eq_refl).
    - intros J. apply E. right. exact J.
    - intros pre post ->. exact (K (o :: pre) post eq_refl).
  Qed.

  Lemma before_lock_id : forall kv, (forall e, In e kv -> exists p t, fst e = ekey p t) -> before_lock kv = kv.
  Proof.
    intros kv H. unfold before_lock, with_prefix. apply filter_id. intros e I. destruct (H e I) as (p & t & ->).
    apply has_prefix_iff. unfold ekey, ekey_prefix. exists (p_action p ++ "/"%char :: p_kind p ++ "/"%char :: print_Z t).
    rewrite <- !app_assoc. cbn [app]. rewrite <- !app_assoc. reflexivity.
  Qed.

  Lemma ask_held_up : forall ops i l k, let s := es_run dur_string max_size allowed lease ops es_new in
    way_of i (es_ways s) = None -> In k (map fst (es_kv s)) -> held_up i k (step s (SAsk i l)).
  Proof.
    intros ops i l k s W K. unfold step. cbn [es_step]. rewrite W. eexists. cbn [es_ways]. unfold way_of in *. rewrite find_app, W.
    cbn [find w_id]. rewrite Nat.eqb_refl. split; [reflexivity|]. split; [reflexivity|]. cbn [w_olds]. rewrite before_lock_id; [exact K|].
    intros e I. destruct (run_values ops e I) as (p & t & ->). exists p, t. reflexivity.
  Qed.

  (** ** How much is stored *)

  (** Each pair has the server that put it; a put on its way waits for those of its own. *)
  Definition owned (n : nat) (s : estate) : Prop := exists own : list (str * nat),
    NoDup (map snd own) /\ (forall k i, In (k, i) own -> (i < n)%nat) /\
    (forall k, In k (map fst own) <-> In k (map fst (es_kv s))) /\
    (forall w k, In w (es_ways s) -> In (k, w_id w) own -> In k (w_olds w)) /\
    (forall w, In w (es_ways s) -> w_phase w <> WWaits -> w_olds w = []) /\
    (forall w, In w (es_ways s) -> (w_id w < n)%nat) /\ NoDup (map w_id (es_ways s)).

  Lemma way_of_in : forall i ws w, way_of i ws = Some w -> In w ws /\ w_id w = i.
  Proof. intros i ws w H. apply find_some in H as [H E]. apply Nat.eqb_eq in E. auto. Qed.

  (** Pairs are deleted. *)
  Lemma owned_deleted : forall n kv kv' ws, (forall e, In e kv' -> In e kv) -> owned n (mk_es kv ws) -> owned n (mk_es kv' (map (still kv') ws)).
  Proof.
    intros n kv kv' ws S (own & D & L & K & B & P & I & N). cbn [es_kv es_ways] in *.
    exists (filter (fun x => contains (fst x) (map fst kv')) own). cbn [es_kv es_ways].
    assert (C : forall k, contains k (map fst kv') = true <-> In k (map fst kv')).
    { intros k. unfold contains. rewrite existsb_exists. split.
      - intros (y & J & E). destruct (str_eqb_spec k y); [congruence|discriminate].
      - intros J. exists k. split; [exact J|apply str_eqb_refl]. }
    split; [|split; [|split; [|split; [|split; [|split]]]]].
    - apply NoDup_map_filter, D.
    - intros k i J. apply filter_In in J as [J _]. exact (L k i J).
    - intros k. split; intros J.
      + apply in_map_iff in J as ([k' i] & E & J). apply filter_In in J as [_ J]. cbn [fst] in *. subst k'. apply C, J.
      + assert (In k (map fst own)) as O.
        { apply K. apply in_map_iff in J as (e & <- & J). apply in_map, S, J. }
        apply in_map_iff in O as (x & E & O). apply in_map_iff. exists x. split; [exact E|]. apply filter_In. split; [exact O|]. apply C. rewrite E. exact J.
    - intros w k J O. apply in_map_iff in J as (w0 & <- & J). cbn [still w_id w_olds] in *. apply filter_In in O as [O1 O2].
      apply filter_In. split; [exact (B w0 k J O1)|exact O2].
    - intros w J Q. apply in_map_iff in J as (w0 & <- & J). cbn [still w_phase w_olds] in *. rewrite (P w0 J Q). reflexivity.
    - intros w J. apply in_map_iff in J as (w0 & <- & J). exact (I w0 J).
    - rewrite map_map. exact N.
  Qed.

  Lemma owned_phase : forall n kv ws i ph, (forall w, In w ws -> w_id w = i -> w_olds w = []) ->
    owned n (mk_es kv ws) -> owned n (mk_es kv (set_phase i ph ws)).
  Proof.
    intros n kv ws i ph F (own & D & L & K & B & P & I & N). cbn [es_kv es_ways] in *. exists own. cbn [es_kv es_ways].
    assert (X : forall w, In w (set_phase i ph ws) -> exists w0, In w0 ws /\ w_id w = w_id w0 /\ w_olds w = w_olds w0 /\ (w_phase w = w_phase w0 \/ w_olds w0 = [])).
    { intros w J. apply in_map_iff in J as (w0 & <- & J). exists w0. split; [exact J|].
      destruct (Nat.eqb_spec (w_id w0) i) as [E|E]; cbn; auto. }
    split; [exact D|]. split; [exact L|]. split; [exact K|]. split; [|split; [|split]].
    - intros w k J O. destruct (X w J) as (w0 & J0 & E1 & E2 & _). rewrite E2. apply B; [exact J0|]. rewrite <- E1. exact O.
    - intros w J Q. destruct (X w J) as (w0 & J0 & E1 & E2 & [E3|E3]); rewrite E2; [|exact E3]. apply (P w0 J0). rewrite <- E3. exact Q.
    - intros w J. destruct (X w J) as (w0 & J0 & E1 & _). rewrite E1. exact (I w0 J0).
    - unfold set_phase. rewrite map_map.
      assert (map (fun w => w_id (if (w_id w =? i)%nat then mk_way (w_id w) (w_items w) ph (w_olds w) else w)) ws = map w_id ws) as ->;
        [|exact N]. apply map_ext. intros w. apply set_phase_id.
  Qed.

  Lemma owned_without : forall n kv ws i, owned n (mk_es kv ws) -> owned n (mk_es kv (without i ws)).
  Proof.
    intros n kv ws i (own & D & L & K & B & P & I & N). cbn [es_kv es_ways] in *. exists own. cbn [es_kv es_ways].
    split; [exact D|]. split; [exact L|]. split; [exact K|]. split; [|split; [|split]].
    - intros w k J. apply filter_In in J as [J _]. exact (B w k J).
    - intros w J. apply filter_In in J as [J _]. exact (P w J).
    - intros w J. apply filter_In in J as [J _]. exact (I w J).
    - apply NoDup_map_filter, N.
  Qed.

  Lemma kv_put_keys : forall {V} k (v : V) l x, In x (map fst (kv_put k v l)) <-> x = k \/ In x (map fst l).
  Proof.
    intros V k v l x. induction l as [|[a b] l IH]; cbn [kv_put map fst In]; [intuition|].
    destruct (str_eq_dec k a) as [->|E]; cbn [map fst In]; [intuition|]. destruct (str_ltb k a); cbn [map fst In]; [intuition|].
    rewrite IH. intuition.
  Qed.

  Lemma same_id : forall ws w w', NoDup (map w_id ws) -> In w ws -> In w' ws -> w_id w = w_id w' -> w = w'.
  Proof.
    induction ws as [|x ws IH]; intros w w' D J J' E; [destruct J|]. cbn [map] in D. inversion_clear D as [|? ? N D'].
    destruct J as [->|J], J' as [->|J']; [reflexivity| | |exact (IH w w' D' J J' E)].
    - exfalso. apply N. rewrite E. apply in_map, J'.
    - exfalso. apply N. rewrite <- E. apply in_map, J.
  Qed.

  Lemma owned_step : forall n ops o, let s := es_run dur_string max_size allowed lease ops es_new in
    by_servers n o -> owned n s -> owned n (step s o).
  Proof.
    intros n ops o s W O. unfold step.
    assert (PV : forall e, In e (es_kv s) -> exists p t, fst e = ekey p t).
    { intros e J. destruct (run_values ops e J) as (p & t & ->). exists p, t. reflexivity. }
    clearbody s. destruct s as [kv ws]. cbn [es_kv] in PV.
    assert (ID : forall i w, way_of i ws = Some w -> NoDup (map w_id ws) -> forall w', In w' ws -> w_id w' = i -> w' = w).
    { intros i w H D w' J E. apply way_of_in in H as [H E']. apply (same_id ws); [exact D|exact J|exact H|congruence]. }
    assert (ND : NoDup (map w_id ws)) by (destruct O as (own & _ & _ & _ & _ & _ & _ & N); exact N).
    assert (PH : forall w, In w ws -> w_phase w <> WWaits -> w_olds w = []) by (destruct O as (own & _ & _ & _ & _ & P & _); exact P).
    destruct o as [i l|i|i seen|i ts|i|k a]; cbn [es_step es_ways es_kv by_servers] in *.
    - destruct (way_of i ws) eqn:E; [exact O|]. destruct O as (own & D & L & K & B & P & I & N). cbn [es_kv es_ways] in *.
      exists own. cbn [es_kv es_ways]. split; [exact D|]. split; [exact L|]. split; [exact K|]. split; [|split; [|split]].
      + intros w k J O. apply in_app_or in J as [J|[<-|[]]]; [exact (B w k J O)|]. cbn [w_id w_olds] in *. rewrite before_lock_id by exact PV.
        apply K. apply (in_map fst) in O. exact O.
      + intros w J Q. apply in_app_or in J as [J|[<-|[]]]; [exact (P w J Q)|]. cbn [w_phase] in Q. congruence.
      + intros w J. apply in_app_or in J as [J|[<-|[]]]; [exact (I w J)|exact W].
      + rewrite map_app. cbn [map w_id]. apply (Permutation_NoDup (Permutation_cons_append (map w_id ws) i)). constructor; [|exact N].
        intros J. apply in_map_iff in J as (w & E2 & J). unfold way_of in E. apply (find_none _ _ E) in J. rewrite E2, Nat.eqb_refl in J. discriminate J.
    - destruct (way_of i ws) as [[i' al ph olds]|] eqn:E; [|exact O]. destruct ph; try exact O. destruct olds; [|exact O].
      destruct (first_keyed i ws); [|exact O]. apply owned_phase; [|exact O]. intros w J E2. rewrite (ID i _ E ND w J E2). reflexivity.
    - destruct (way_of i ws) as [[i' al ph olds]|] eqn:E; [|exact O]. destruct ph; try exact O.
      apply (owned_deleted n kv).
      + intros e J. apply check_size_from in J. exact J.
      + apply owned_phase; [|exact O]. intros w J E2. apply PH; [exact J|]. rewrite (ID i _ E ND w J E2). discriminate.
    - destruct (way_of i ws) as [[i' al ph olds]|] eqn:E; [|exact O]. destruct ph; try exact O.
      pose proof (way_of_in _ _ _ E) as [Ew Ei]. cbn [w_id] in Ei. subst i'.
      assert (olds = []) as -> by (apply (PH _ Ew); discriminate).
      apply (owned_without n kv ws i) in O as O'. unfold put_txn. destruct (thens _) eqn:T; cbn [snd]; [|exact O'].
      unfold thens in T. apply Nat.leb_le in T.
      assert (combine al ts = [] \/ exists p t, combine al ts = [(p, t)]) as [->|(p & t & ->)]; [|exact O'|].
      { assert (List.length (combine al ts) <= 1)%nat as LC by (rewrite combine_length; lia).
        destruct (combine al ts) as [|[p t] [|y r]]; [left; reflexivity|right; exists p, t; reflexivity|cbn in LC; lia]. }
      cbn [fold_left fst snd]. clear O'. destruct O as (own & D & L & K & B & P & I & N). cbn [es_kv es_ways] in *.
      set (k := ekey p t) in *. set (own' := filter (fun x : str * nat => negb (str_eqb (fst x) k)) own).
      assert (SUB : forall x, In x own' -> In x own /\ fst x <> k).
      { intros x J. apply filter_In in J as [J Q]. split; [exact J|]. intros EQ. rewrite EQ, str_eqb_refl in Q. discriminate Q. }
      exists ((k, i) :: own'). cbn [es_kv es_ways]. split; [|split; [|split; [|split; [|split; [|split]]]]].
      + cbn [map snd]. constructor; [|apply NoDup_map_filter, D]. intros J. apply in_map_iff in J as ([k0 i0] & E2 & J). cbn [snd] in E2. subst i0.
        apply SUB in J as [J _]. exact (B _ k0 Ew J).
      + intros k0 i0 [J|J]; [injection J as <- <-; exact (I _ Ew)|]. apply SUB in J as [J _]. exact (L k0 i0 J).
      + intros x. rewrite kv_put_keys. cbn [map fst In]. split; intros [J|J].
        * left. symmetry. exact J.
        * right. apply K. apply in_map_iff in J as (y & E2 & J). apply SUB in J as [J _]. rewrite <- E2. apply in_map, J.
        * left. symmetry. exact J.
        * destruct (str_eq_dec k x) as [->|NE]; [left; reflexivity|]. right. apply K in J. apply in_map_iff in J as (y & E2 & J).
          apply in_map_iff. exists y. split; [exact E2|]. apply filter_In. split; [exact J|]. rewrite E2.
          destruct (str_eqb_spec x k); [congruence|reflexivity].
      + intros w k0 J [J2|J2].
        * injection J2 as _ E2. apply filter_In in J as [_ J]. rewrite <- E2, Nat.eqb_refl in J. discriminate J.
        * apply SUB in J2 as [J2 _]. apply filter_In in J as [J _]. exact (B w k0 J J2).
      + intros w J. apply filter_In in J as [J _]. exact (P w J).
      + intros w J. apply filter_In in J as [J _]. exact (I w J).
      + apply NoDup_map_filter, N.
    - apply owned_without, O.
    - apply (owned_deleted n kv); [|exact O]. intros e J. unfold es_clear in J. destruct (thens _); cbn [snd] in J; [apply clear_from in J|]; exact J.
  Qed.

  Lemma owned_run : forall n ops, Forall (by_servers n) ops -> owned n (es_run dur_string max_size allowed lease ops es_new).
  Proof.
    intros n ops. induction ops as [|o ops IH] using rev_ind; intros F.
    - exists []. cbn. split; [constructor|]. split; [intros k i []|]. split; [tauto|]. split; [intros w k []|]. split; [intros w []|]. split; [intros w []|constructor].
    - apply Forall_app in F as [F F2]. inversion_clear F2 as [|? ? W _]. unfold es_run. rewrite fold_left_app. cbn [fold_left].
      apply (owned_step n ops o W (IH F)).
  Qed.

  Lemma NoDup_below : forall n (l : list nat), NoDup l -> (forall i, In i l -> (i < n)%nat) -> (List.length l <= n)%nat.
  Proof.
    intros n l D H. rewrite <- (seq_length n 0). apply NoDup_incl_length; [exact D|]. intros i J. apply in_seq. specialize (H i J). lia.
  Qed.

  Lemma sorted_keys : forall kv : ekv, StronglySorted klt kv -> NoDup (map fst kv).
  Proof.
    intros kv H. induction H as [|e kv S IH F]; [constructor|]. cbn [map]. constructor; [|exact IH]. intros J.
    apply in_map_iff in J as (e' & E & J). rewrite Forall_forall in F. specialize (F e' J). unfold klt in F. rewrite E, str_ltb_irrefl in F. discriminate F.
  Qed.

  Lemma run_within : forall n ops, Forall (by_servers n) ops -> (List.length (run ops) <= n)%nat.
  Proof.
    intros n ops F. destruct (owned_run n ops F) as (own & D & L & K & _).
    assert (List.length own <= n)%nat as A.
    { rewrite <- (map_length snd). apply NoDup_below; [exact D|]. intros i J. apply in_map_iff in J as ([k i'] & <- & J). exact (L k i' J). }
    assert (List.length (map fst (run ops)) <= List.length (map fst own))%nat as B2.
    { apply NoDup_incl_length; [apply sorted_keys, run_sorted|]. intros k J. apply K, J. }
    rewrite !map_length in B2. lia.
  Qed.

  (** ** One holder of the lock at a time *)

  Definition one_holder (ws : list way) : Prop :=
    NoDup (map w_id ws) /\ forall w, In w ws -> w_phase w = WHas -> exists rest, filter keyed ws = w :: rest.

  Lemma filter_map_keyed : forall f ws, (forall w, keyed (f w) = keyed w) -> filter keyed (map f ws) = map f (filter keyed ws).
  Proof.
    intros f ws H. induction ws as [|w ws IH]; [reflexivity|]. cbn [map filter]. rewrite H. destruct (keyed w); cbn [map]; rewrite IH; reflexivity.
  Qed.

  Lemma holder_still : forall kv ws, one_holder ws -> one_holder (map (still kv) ws).
  Proof.
    intros kv ws [N H]. split; [rewrite map_map; exact N|]. intros w J P. apply in_map_iff in J as (w0 & <- & J).
    destruct (H w0 J P) as (r & E). exists (map (still kv) r). rewrite filter_map_keyed by reflexivity. rewrite E. reflexivity.
  Qed.

  Lemma holder_without : forall i ws, one_holder ws -> one_holder (without i ws).
  Proof.
    intros i ws [N H]. split; [apply NoDup_map_filter, N|]. intros w J P. apply filter_In in J as [J K]. destruct (H w J P) as (r & E).
    exists (without i r).
    assert (C : forall l, filter keyed (without i l) = without i (filter keyed l)).
    { unfold without. induction l as [|x l IH]; [reflexivity|]. cbn [filter].
      destruct (negb (w_id x =? i)%nat) eqn:A, (keyed x) eqn:B; cbn [filter]; rewrite ?A, ?B, IH; reflexivity. }
    rewrite C, E. unfold without. cbn [filter]. rewrite K. reflexivity.
  Qed.

  Lemma set_phase_ids : forall i ph ws, map w_id (set_phase i ph ws) = map w_id ws.
  Proof. intros i ph ws. unfold set_phase. rewrite map_map. apply map_ext. intros w. apply set_phase_id. Qed.

  Lemma holder_step : forall s o, one_holder (es_ways s) -> one_holder (es_ways (step s o)).
  Proof.
    intros [kv ws] o [N H]. unfold step. cbn [es_ways] in *.
    assert (ID : forall i w, way_of i ws = Some w -> forall w', In w' ws -> w_id w' = i -> w' = w).
    { intros i w X w' J E. apply way_of_in in X as [X E']. apply (same_id ws); [exact N|exact J|exact X|congruence]. }
    destruct o as [i l|i|i seen|i ts|i|k a]; cbn [es_step es_ways es_kv].
    - destruct (way_of i ws) eqn:E; [split; assumption|]. cbn [es_ways]. split.
      + rewrite map_app. cbn [map w_id]. apply (Permutation_NoDup (Permutation_cons_append (map w_id ws) i)). constructor; [|exact N].
        intros J. apply in_map_iff in J as (w & E2 & J). unfold way_of in E. apply (find_none _ _ E) in J. rewrite E2, Nat.eqb_refl in J. discriminate J.
      + intros w J P. apply in_app_or in J as [J|[<-|[]]]; [|discriminate P]. destruct (H w J P) as (r & E2). rewrite filter_app, E2. eexists. reflexivity.
    - destruct (way_of i ws) as [[i' al ph olds]|] eqn:E; [|split; assumption]. destruct ph; try (split; assumption). destruct olds; [|split; assumption].
      destruct (first_keyed i ws) eqn:FK; [|split; assumption]. cbn [es_ways]. split; [rewrite set_phase_ids; exact N|].
      pose proof (way_of_in _ _ _ E) as [Ew Ei]. cbn [w_id] in Ei. subst i'.
      unfold first_keyed in FK. destruct (filter keyed ws) as [|w0 r] eqn:EF; [discriminate FK|]. apply Nat.eqb_eq in FK.
      assert (In w0 ws) as J0 by (assert (In w0 (filter keyed ws)) as Q by (rewrite EF; left; reflexivity); apply filter_In in Q as [Q _]; exact Q).
      pose proof (ID i _ E w0 J0 FK) as E0. subst w0.
      assert (C : filter keyed (set_phase i WHas ws) = set_phase i WHas (filter keyed ws)).
      { unfold set_phase. clear - N Ew. assert (ID : forall w', In w' ws -> w_id w' = i -> keyed w' = true).
        { intros w' J E. assert (w' = mk_way i al WWaits []) as ->; [|reflexivity]. apply (same_id ws); [exact N|exact J|exact Ew|exact E]. }
        clear N Ew. induction ws as [|w ws IH]; [reflexivity|]. cbn [map filter].
        rewrite IH by (intros w' J; apply ID; right; exact J).
        destruct (Nat.eqb_spec (w_id w) i) as [Q|Q].
        - rewrite (ID w (or_introl eq_refl) Q). cbn [keyed w_phase map]. rewrite Q, Nat.eqb_refl. reflexivity.
        - destruct (keyed w); cbn [map]; [|reflexivity]. destruct (Nat.eqb_spec (w_id w) i); [contradiction|reflexivity]. }
      rewrite C, EF. unfold set_phase at 2. cbn [map w_id]. rewrite Nat.eqb_refl. cbn [w_items w_olds].
      intros w J P. apply in_map_iff in J as (w1 & <- & J). destruct (Nat.eqb_spec (w_id w1) i) as [Q|Q].
      + rewrite (ID i _ E w1 J Q). eexists. reflexivity.
      + destruct (H w1 J P) as (r' & E2). injection E2 as E2 _. subst w1. cbn [w_id] in Q. contradiction.
    - destruct (way_of i ws) as [[i' al ph olds]|] eqn:E; [|split; assumption]. destruct ph; try (split; assumption). cbn [es_ways].
      apply holder_still. split; [rewrite set_phase_ids; exact N|].
      pose proof (way_of_in _ _ _ E) as [Ew Ei]. cbn [w_id] in Ei. subst i'. destruct (H _ Ew eq_refl) as (r & E1).
      intros w J P. apply in_map_iff in J as (w1 & <- & J). destruct (Nat.eqb_spec (w_id w1) i) as [Q|Q]; [discriminate P|].
      destruct (H w1 J P) as (r' & E2). rewrite E1 in E2. injection E2 as E2 _. subst w1. cbn [w_id] in Q. contradiction.
    - destruct (way_of i ws) as [[i' al ph olds]|] eqn:E; [|split; assumption]. destruct ph; try (split; assumption).
      apply holder_without. split; assumption.
    - apply holder_without. split; assumption.
    - apply holder_still. split; assumption.
  Qed.

  Lemma holder_run : forall ops, one_holder (es_ways (es_run dur_string max_size allowed lease ops es_new)).
  Proof.
    intros ops. induction ops as [|o ops IH] using rev_ind.
    - split; [constructor|intros w []].
    - unfold es_run. rewrite fold_left_app. cbn [fold_left]. apply holder_step, IH.
  Qed.

  Lemma holder_alone : forall ops w w', let s := es_run dur_string max_size allowed lease ops es_new in
    In w (es_ways s) -> In w' (es_ways s) -> w_phase w = WHas -> w_phase w' = WHas -> w = w'.
  Proof.
    intros ops w w' s J J' P P'. destruct (holder_run ops) as [_ H]. fold s in H.
    destruct (H w J P) as (r & E), (H w' J' P') as (r' & E'). rewrite E in E'. injection E' as E' _. exact E'.
  Qed.

  (** Servers that all ask before the first of them commits. *)
  Definition crowd_asks (p : perf) (n : nat) : list esop := flat_map (fun i => [SAsk i [p]; SGrant i; STrim i []]) (seq 0 n).
  Definition crowd_commits (n : nat) : list esop := map (fun i => SCommit i [Z.of_nat i]) (seq 0 n).
  Let past (p : perf) (i : nat) : way := mk_way i [p] WPast [].

  Lemma find_past : forall p i ms, ~ In i ms -> way_of i (map (past p) ms) = None.
  Proof.
    intros p i ms N. unfold way_of. induction ms as [|m ms IH]; [reflexivity|]. cbn [map find past w_id].
    destruct (Nat.eqb_spec m i) as [->|E]; [exfalso; apply N; left; reflexivity|]. apply IH. intros J. apply N. right. exact J.
  Qed.

  Lemma crowd_asked : forall p n, 1 <= max_size -> In (p_action p) allowed ->
    es_run dur_string max_size allowed lease (crowd_asks p n) es_new = mk_es [] (map (past p) (seq 0 n)).
  Proof.
    intros p n M A. induction n as [|n IH]; [reflexivity|].
    unfold crowd_asks in *. rewrite seq_S, flat_map_app. cbn [flat_map Nat.add]. unfold es_run in *. rewrite fold_left_app, IH. cbn [app fold_left].
    assert (allows allowed [p] = [p]) as AL.
    { unfold allows. cbn [filter]. assert (contains (p_action p) allowed = true) as ->; [|reflexivity].
      apply existsb_exists. exists (p_action p). split; [exact A|apply str_eqb_refl]. }
    assert (NI : ~ In n (seq 0 n)) by (intros J; apply in_seq in J; lia).
    assert (F1 : forall w, w_id w = n -> way_of n (map (past p) (seq 0 n) ++ [w]) = Some w).
    { intros w E. unfold way_of. rewrite find_app. pose proof (find_past p n (seq 0 n) NI) as Q. unfold way_of in Q. rewrite Q. cbn [find]. rewrite E, Nat.eqb_refl. reflexivity. }
    assert (SP : forall ph ms, ~ In n ms -> set_phase n ph (map (past p) ms) = map (past p) ms).
    { intros ph ms N. unfold set_phase. rewrite map_map. apply map_ext_in. intros i J. cbn [past w_id]. destruct (Nat.eqb_spec i n); [subst; contradiction|reflexivity]. }
    unfold es_step at 3. cbn [es_ways es_kv]. rewrite find_past by exact NI. rewrite AL. cbn [before_lock with_prefix filter map].
    unfold es_step at 2. cbn [es_ways es_kv]. rewrite F1 by reflexivity.
    assert (first_keyed n (map (past p) (seq 0 n) ++ [mk_way n [p] WWaits []]) = true) as ->.
    { unfold first_keyed. rewrite filter_app. assert (filter keyed (map (past p) (seq 0 n)) = []) as ->.
      { clear. induction (seq 0 n) as [|x l IH]; [reflexivity|]. exact IH. }
      cbn. apply Nat.eqb_refl. }
    assert (SA : forall ph w, w_id w = n -> set_phase n ph (map (past p) (seq 0 n) ++ [w]) = map (past p) (seq 0 n) ++ [mk_way (w_id w) (w_items w) ph (w_olds w)]).
    { intros ph w E. unfold set_phase at 1. rewrite map_app. change (map _ (map (past p) (seq 0 n))) with (set_phase n ph (map (past p) (seq 0 n))).
      rewrite SP by exact NI. cbn [map]. rewrite E, Nat.eqb_refl. reflexivity. }
    rewrite SA by reflexivity. cbn [w_id w_items w_olds]. unfold es_step. cbn [es_ways es_kv]. rewrite F1 by reflexivity. cbn [List.length].
    assert (check_size max_size (etcd_prefix ++ "/"%char :: lease n) [] 1 [] = []) as ->.
    { unfold check_size, es_size. cbn [fold_right]. destruct (Z.ltb_spec 0 (0 + Z.of_nat 1 - max_size)); [lia|reflexivity]. }
    rewrite SA by reflexivity. cbn [w_id w_items w_olds]. rewrite !map_app. cbn [map still w_id w_items w_phase w_olds filter]. f_equal. f_equal.
    rewrite map_map. apply map_ext. reflexivity.
  Qed.

  Lemma crowd_committed : forall p n m kv,
    (forall e, In e kv -> exists t, fst e = ekey p (Z.of_nat t) /\ (t < m)%nat) ->
    List.length (es_kv (es_run dur_string max_size allowed lease (map (fun i => SCommit i [Z.of_nat i]) (seq m n)) (mk_es kv (map (past p) (seq m n)))))
    = (List.length kv + n)%nat.
  Proof.
    intros p n. induction n as [|n IH]; intros m kv H; [cbn; lia|].
    cbn [seq map]. unfold es_run. cbn [fold_left]. unfold es_step at 2. cbn [es_ways es_kv way_of find past w_id]. rewrite Nat.eqb_refl.
    assert (without m (past p m :: map (past p) (seq (S m) n)) = map (past p) (seq (S m) n)) as ->.
    { unfold without. cbn [filter past w_id]. rewrite Nat.eqb_refl. cbn [negb]. apply filter_id. intros w J. apply in_map_iff in J as (i & <- & J).
      apply in_seq in J. cbn [past w_id]. destruct (Nat.eqb_spec i m); [lia|reflexivity]. }
    set (R := map (past p) (seq (S m) n)) in *. unfold past. cbv beta iota. subst R.
    cbn [put_txn thens List.length Nat.leb combine fold_left fst snd].
    assert (~ In (ekey p (Z.of_nat m)) (map fst kv)) as Fr.
    { intros I. apply in_map_iff in I as (e & E & I). destruct (H e I) as (t & E2 & T). rewrite E2 in E. apply ekey_inj in E; lia. }
    pose proof (kv_put_in (ekey p (Z.of_nat m)) (dur_string (p_cost p)) kv Fr) as P.
    specialize (IH (S m) (kv_put (ekey p (Z.of_nat m)) (dur_string (p_cost p)) kv)). unfold es_run in IH. rewrite IH.
    - rewrite (Permutation_length P). cbn [List.length]. lia.
    - intros e I. apply (Permutation_in _ P) in I as [<-|I]; [exists m; split; [reflexivity|lia]|].
      destruct (H e I) as (t & E & T). exists t. split; [exact E|lia].
  Qed.

  Lemma crowd_size : forall p n, 1 <= max_size -> In (p_action p) allowed ->
    List.length (run (crowd_asks p n ++ crowd_commits n)) = n.
  Proof.
    intros p n M A. unfold run, es_run. rewrite fold_left_app. fold (es_run dur_string max_size allowed lease (crowd_asks p n) es_new).
    rewrite crowd_asked by assumption. apply (crowd_committed p n 0 []). intros e [].
  Qed.
End EtcdProofs.
