(** Proofs about [Borrow_Model]. *)
From Coq Require Import List Ascii Arith Bool Lia.
From Verif Require Import Str_Model Str_Proofs Meta_Model Borrow_Model Borrow_Spec.
Import ListNotations.
Local Open Scope list_scope.

(** ** Slices *)

Lemma cutout_app : forall a b c, cutout (a ++ b ++ c) (List.length a) (List.length b) = b.
Proof.
  intros a b c. unfold cutout. rewrite skipn_app, skipn_all, Nat.sub_diag. change (skipn 0 (b ++ c)) with (b ++ c). cbn [app].
  rewrite <- (app_assoc b), firstn_app, firstn_all, Nat.sub_diag. cbn [firstn]. apply app_nil_r.
Qed.

Lemma key_refs_right : forall gen page l pre r k, In (r, k) (key_refs gen page (List.length pre) l) ->
  r_gen r = gen /\ r_page r = page /\ cutout (pre ++ page_body l) (r_off r) (r_len r) = k.
Proof.
  intros gen page. induction l as [|[k v] l IH]; intros pre r k' H; [destruct H|].
  cbn [key_refs] in H. destruct H as [H|H].
  - injection H as <- <-. split; [reflexivity|]. split; [reflexivity|]. cbn [r_off r_len page_body flat_map fst snd].
    rewrite <- app_assoc. apply cutout_app.
  - assert (E : List.length pre + List.length k + List.length v = List.length (pre ++ k ++ v)) by (rewrite !app_length; lia).
    rewrite E in H. destruct (IH _ _ _ H) as (G & P & C). split; [exact G|]. split; [exact P|].
    cbn [page_body flat_map fst snd]. rewrite <- C. unfold page_body. rewrite <- !app_assoc. reflexivity.
Qed.

Lemma key_refs_keys : forall gen page l off, map snd (key_refs gen page off l) = map fst l.
Proof. intros gen page. induction l as [|[k v] l IH]; intros off; [reflexivity|]. cbn. rewrite IH. reflexivity. Qed.

(** In memory that is as it was, each slice is its key. *)
Definition ref_ok (s0 : bolt) (r : ref) (k : str) : Prop := forall s, intact s0 s -> deref s r = Some k.

Lemma refs_ok : forall s0 r k, settled s0 -> In (r, k) (key_refs (bo_gen s0) (bo_page s0) (16 + 16 * List.length (bo_items s0)) (bo_items s0)) ->
  ref_ok s0 r k.
Proof.
  intros s0 r k St H s (M & G).
  replace (16 + 16 * List.length (bo_items s0)) with (List.length (repeat nul (16 + 16 * List.length (bo_items s0)))) in H by apply repeat_length.
  destruct (key_refs_right _ _ _ _ _ _ H) as (Eg & Ep & C). unfold deref. rewrite Eg, G, Nat.eqb_refl, Ep, M, St. unfold render.
  rewrite C. reflexivity.
Qed.

(** ** What is stored *)

Lemma find_filter_same : forall k l, find_item k (List.filter (fun i : item => negb (str_eqb k (fst i))) l) = None.
Proof.
  intros k. induction l as [|[k' v] l IH]; [reflexivity|]. cbn [List.filter fst]. destruct (str_eqb k k') eqn:E; cbn [negb]; [exact IH|].
  cbn [find_item]. rewrite E. exact IH.
Qed.

Lemma find_filter_other : forall k k' l, k <> k' -> find_item k (List.filter (fun i : item => negb (str_eqb k' (fst i))) l) = find_item k l.
Proof.
  intros k k' l N. induction l as [|[x v] l IH]; [reflexivity|]. cbn [List.filter fst find_item].
  destruct (str_eqb k' x) eqn:E; cbn [negb].
  - apply str_eqb_eq in E. subst x. destruct (str_eqb k k') eqn:E2; [apply str_eqb_eq in E2; contradiction|exact IH].
  - cbn [find_item]. rewrite IH. reflexivity.
Qed.

Lemma find_put_other : forall k k' v l, k <> k' -> find_item k (put_item k' v l) = find_item k l.
Proof.
  intros k k' v l N. assert (E0 : str_eqb k k' = false).
  { destruct (str_eqb k k') eqn:E; [apply str_eqb_eq in E; contradiction|reflexivity]. }
  induction l as [|[x w] l IH]; cbn [put_item]; [cbn; rewrite E0; reflexivity|].
  destruct (str_eqb k' x) eqn:E.
  - apply str_eqb_eq in E. subst x. cbn [find_item]. rewrite E0. reflexivity.
  - destruct (str_ltb k' x); cbn [find_item]; [rewrite E0; reflexivity|]. rewrite IH. reflexivity.
Qed.

Lemma delete_other : forall p k k' s, k <> k' -> find_item k (bo_items (bdelete p k' s)) = find_item k (bo_items s).
Proof.
  intros p k k' s N. unfold bdelete. destruct (find_item k' (bo_items s)); [|reflexivity]. unfold bwrite.
  destruct (may_use s p); [|reflexivity]. cbn [bo_items]. apply find_filter_other, N.
Qed.

Lemma put_other : forall p k k' v s, k <> k' -> find_item k (bo_items (bput p k' v s)) = find_item k (bo_items s).
Proof.
  intros p k k' v s N. unfold bput, bwrite. destruct (may_use s p); [|reflexivity]. cbn [bo_items]. apply find_put_other, N.
Qed.

(** ** The memory of an open read transaction *)

Definition held (s0 s : bolt) : Prop :=
  intact s0 s /\ bo_pinned s = true /\ (bo_page s = bo_page s0 \/ In (bo_page s0) (bo_pend s)).

Lemma held_write : forall s0 s p l, held s0 s -> held s0 (bwrite p l s).
Proof.
  intros s0 s p l ((M & G) & P & H). unfold bwrite. destruct (may_use s p) eqn:U; [|repeat split; assumption].
  unfold may_use, released in U. rewrite P in U. apply andb_prop in U as (U1 & U2).
  apply negb_true_iff in U1, U2. apply Nat.eqb_neq in U1.
  assert (bo_page s0 <> p) as N.
  { intros E. destruct H as [H|H]; [congruence|]. apply not_true_iff_false in U2. apply U2. apply existsb_exists.
    exists (bo_page s0). split; [exact H|]. rewrite <- E. apply Nat.eqb_refl. }
  unfold released. rewrite P. repeat split; cbn.
  - apply Nat.eqb_neq in N. rewrite N. exact M.
  - exact G.
  - right. destruct H as [<-|H]; [left; reflexivity|right; exact H].
Qed.

Lemma held_delete : forall s0 s p k, held s0 s -> held s0 (bdelete p k s).
Proof.
  intros s0 s p k H. unfold bdelete. destruct (find_item k (bo_items s)); [apply held_write, H|].
  destruct H as ((M & G) & P & H). unfold released. rewrite P. repeat split; assumption.
Qed.

Lemma held_grow : forall s0 s, held s0 s -> held s0 (bgrow s).
Proof. intros s0 s H. unfold bgrow. destruct H as (I & P & H). rewrite P. repeat split; try assumption; apply I. Qed.

Lemma held_step : forall s0 m o, held s0 (mg_db m) -> held s0 (mg_db (xstep m o)).
Proof.
  intros s0 m o H. unfold xstep. destruct (mg_dead m); [exact H|]. destruct o as [ack|k p|k v p|].
  - destruct (mg_todo m) as [|r rest]; [exact H|]. destruct (deref (mg_db m) r) as [k|]; [|exact H].
    destruct (find_item k _); [destruct ack|]; exact H.
  - destruct (nth_error (mg_go m) k) as [r|]; [|exact H]. destruct (deref (mg_db m) r); [|exact H]. cbn. apply held_delete, H.
  - cbn. apply held_write, H.
  - cbn. apply held_grow, H.
Qed.

Lemma held_run : forall s0 ops m, held s0 (mg_db m) -> held s0 (mg_db (xrun m ops)).
Proof. intros s0. induction ops as [|o r IH]; intros m H; [exact H|]. cbn. apply IH, held_step, H. Qed.

(** ** One write *)

Lemma one_write : forall s0 s p l, bo_mem s (bo_page s) = bo_mem s0 (bo_page s0) -> bo_page s = bo_page s0 -> bo_gen s = bo_gen s0 ->
  intact s0 (bwrite p l s).
Proof.
  intros s0 s p l M P G. unfold bwrite. destruct (may_use s p) eqn:U; [|split; congruence].
  unfold may_use in U. apply andb_prop in U as (U & _). apply negb_true_iff, Nat.eqb_neq in U.
  split; cbn; [|exact G]. rewrite <- P. assert (bo_page s <> p) as N by congruence. apply Nat.eqb_neq in N. rewrite N. congruence.
Qed.

Lemma one_delete : forall s0 s p k, bo_mem s (bo_page s) = bo_mem s0 (bo_page s0) -> bo_page s = bo_page s0 -> bo_gen s = bo_gen s0 ->
  intact s0 (bdelete p k s).
Proof.
  intros s0 s p k M P G. unfold bdelete. destruct (find_item k (bo_items s)); [apply one_write; assumption|].
  split; cbn; congruence.
Qed.

Lemma next_db : forall m ack, mg_db (xstep m (XNext ack)) = mg_db m.
Proof.
  intros m ack. unfold xstep. destruct (mg_dead m); [reflexivity|]. destruct (mg_todo m) as [|r rest]; [reflexivity|].
  destruct (deref (mg_db m) r) as [k|]; [|reflexivity]. destruct (find_item k _); [destruct ack|]; reflexivity.
Qed.

Lemma nexts_db : forall ops m, writes ops = 0 -> mg_db (xrun m ops) = mg_db m.
Proof.
  induction ops as [|o r IH]; intros m W; [reflexivity|]. destruct o; try discriminate W. cbn [xrun fold_left] in *.
  change (fold_left xstep r (xstep m (XNext ack))) with (xrun (xstep m (XNext ack)) r). rewrite IH by exact W. apply next_db.
Qed.

Lemma few_writes : forall ops m, writes ops <= 1 -> Forall no_grow ops -> intact (mg_db m) (mg_db (xrun m ops)).
Proof.
  induction ops as [|o r IH]; intros m W F; [split; reflexivity|]. inversion F as [|? ? No Fr]; subst.
  change (xrun m (o :: r)) with (xrun (xstep m o) r).
  destruct o as [ack|k p|k v p|]; cbn [writes] in W.
  - specialize (IH (xstep m (XNext ack)) W Fr). rewrite next_db in IH. exact IH.
  - rewrite nexts_db by lia. unfold xstep. destruct (mg_dead m); [split; reflexivity|].
    destruct (nth_error (mg_go m) k) as [x|]; [|split; reflexivity]. destruct (deref (mg_db m) x); [|split; reflexivity].
    cbn. apply one_delete; reflexivity.
  - rewrite nexts_db by lia. unfold xstep. destruct (mg_dead m); [split; reflexivity|]. cbn. apply one_write; reflexivity.
  - congruence || (exfalso; apply No; reflexivity).
Qed.

(** ** A migration with the memory as it was *)

Record minv (s0 : bolt) (sel : str -> bool) (done : list xop) (m : mig) : Prop := {
  mi_dead : mg_dead m = false;
  mi_todo : exists old ks, Forall2 (ref_ok s0) (mg_todo m) ks /\
    List.filter sel (map fst (bo_items s0)) = old ++ ks /\
    forall k, In k old <-> In k (map fst (mg_sent m)) \/ In k (mg_errs m);
  mi_go : Forall (fun r => exists k, ref_ok s0 r k /\ In k (map fst (mg_sent m))) (mg_go m);
  mi_kept : forall k v, find_item k (bo_items s0) = Some v -> ~ puts k done ->
    (find_item k (bo_items (mg_db m)) = Some v \/ find_item k (bo_items (mg_db m)) = None /\ In (k, v) (mg_sent m)) /\
    (forall v', In (k, v') (mg_sent m) -> v' = v)
}.

Lemma filter_refs : forall sel l, map snd (List.filter (fun x : ref * str => sel (snd x)) l) = List.filter sel (map snd l).
Proof.
  intros sel. induction l as [|[r k] l IH]; [reflexivity|]. cbn [List.filter map snd]. destruct (sel k); cbn; rewrite IH; reflexivity.
Qed.

Lemma minv_start : forall s0 sel, settled s0 -> minv s0 sel [] (mig_start s0 sel).
Proof.
  intros s0 sel St. constructor.
  - reflexivity.
  - exists [], (List.filter sel (map fst (bo_items s0))). split; [|split; [reflexivity|intros k; cbn; tauto]].
    unfold mig_start. cbn [mg_todo].
    set (L := key_refs (bo_gen s0) (bo_page s0) (16 + 16 * List.length (bo_items s0)) (bo_items s0)).
    assert (forall r k, In (r, k) L -> ref_ok s0 r k) as OK by (intros r k H; apply (refs_ok s0 r k St H)).
    assert (map snd L = map fst (bo_items s0)) as <- by apply key_refs_keys.
    rewrite <- filter_refs. clearbody L. induction L as [|[r k] L IH]; [constructor|].
    cbn [List.filter snd]. assert (forall r k, In (r, k) L -> ref_ok s0 r k) as OK1 by (intros; apply OK; right; assumption).
    destruct (sel k); [|apply IH, OK1]. cbn [map fst snd]. constructor; [apply OK; left; reflexivity|apply IH, OK1].
  - constructor.
  - intros k v F _. split; [left; exact F|]. intros v' [].
Qed.

Lemma puts_mono : forall k a b, ~ puts k (a ++ b) -> ~ puts k a.
Proof. intros k a b H (v & p & I). apply H. exists v, p. apply in_or_app. left. exact I. Qed.

Lemma in_skipn_S : forall A i (l : list A) x, In x (skipn (S i) l) -> In x (skipn i l).
Proof.
  induction i as [|i IH]; intros [|y l] x H; cbn in H |- *; try exact H; [right; exact H|]. apply IH. exact H.
Qed.

Lemma minv_step : forall s0 sel done m o, minv s0 sel done m -> intact s0 (mg_db m) -> minv s0 sel (done ++ [o]) (xstep m o).
Proof.
  intros s0 sel done m o [D (old & ks & T & L & C) Go K] I. unfold xstep. rewrite D. destruct o as [ack|i p|k v p|].
  - destruct (mg_todo m) as [|r rest] eqn:Et.
    { constructor; [exact D|exists old, ks; rewrite Et; auto|exact Go|]. intros k v F P. apply K; [exact F|]. eapply puts_mono, P. }
    inversion T as [|? k ? ks' R T']; subst. rewrite (R _ I).
    assert (L' : List.filter sel (map fst (bo_items s0)) = (old ++ [k]) ++ ks') by (rewrite <- app_assoc; exact L).
    destruct (find_item k (bo_items (mg_db m))) as [v|] eqn:F; [destruct ack|].
    + constructor; cbn [mg_dead mg_todo mg_go mg_sent mg_errs mg_db].
      * reflexivity.
      * exists (old ++ [k]), ks'. split; [exact T'|]. split; [exact L'|]. intros x. rewrite map_app, !in_app_iff. cbn.
        rewrite C. tauto.
      * apply Forall_app. split.
        -- eapply Forall_impl; [|exact Go]. intros x (y & Y1 & Y2). exists y. split; [exact Y1|]. rewrite map_app. apply in_or_app. left. exact Y2.
        -- constructor; [|constructor]. exists k. split; [exact R|]. rewrite map_app. apply in_or_app. right. left. reflexivity.
      * intros x w Fx P. destruct (K x w Fx (puts_mono _ _ _ P)) as (K1 & K2). split.
        -- destruct K1 as [K1|(K1 & K3)]; [left; exact K1|right]. split; [exact K1|]. apply in_or_app. left. exact K3.
        -- intros w' H. apply in_app_iff in H as [H|[H|[]]]; [apply K2, H|]. injection H as -> ->.
           destruct K1 as [K1|(K1 & _)]; congruence.
    + constructor; cbn [mg_dead mg_todo mg_go mg_sent mg_errs mg_db]; [reflexivity| |exact Go|].
      * exists (old ++ [k]), ks'. split; [exact T'|]. split; [exact L'|]. intros x. rewrite !in_app_iff. cbn. rewrite C. tauto.
      * intros x w Fx P. apply K; [exact Fx|]. eapply puts_mono, P.
    + constructor; cbn [mg_dead mg_todo mg_go mg_sent mg_errs mg_db]; [reflexivity| |exact Go|].
      * exists (old ++ [k]), ks'. split; [exact T'|]. split; [exact L'|]. intros x. rewrite !in_app_iff. cbn. rewrite C. tauto.
      * intros x w Fx P. apply K; [exact Fx|]. eapply puts_mono, P.
  - destruct (nth_error (mg_go m) i) as [r|] eqn:En.
    2: { constructor; [exact D|exists old, ks; auto|exact Go|]. intros k v F P. apply K; [exact F|]. eapply puts_mono, P. }
    pose proof (proj1 (Forall_forall _ _) Go r (nth_error_In _ _ En)) as (k & R & S1). rewrite (R _ I).
    constructor; cbn [mg_dead mg_todo mg_go mg_sent mg_errs mg_db]; [reflexivity|exists old, ks; auto| |].
    + apply Forall_forall. intros x Hx. apply (proj1 (Forall_forall _ _) Go). rewrite <- (firstn_skipn i (mg_go m)).
      apply in_app_iff in Hx as [Hx|Hx]; apply in_or_app; [left; exact Hx|right].
      apply in_skipn_S, Hx.
    + intros x w Fx P. destruct (K x w Fx (puts_mono _ _ _ P)) as (K1 & K2). split; [|exact K2].
      destruct (list_eq_dec ascii_dec x k) as [->|Nk].
      * apply in_map_iff in S1 as ([k' w'] & E & S1). cbn in E. subst k'. specialize (K2 _ S1). subst w'.
        unfold bdelete. destruct (find_item k (bo_items (mg_db m))) as [u|] eqn:F.
        -- unfold bwrite. destruct (may_use (mg_db m) p); cbn [bo_items].
           ++ right. split; [apply find_filter_same|exact S1].
           ++ rewrite F in *. exact K1.
        -- cbn [bo_items]. right. split; [exact F|exact S1].
      * rewrite delete_other by exact Nk. exact K1.
  - constructor; cbn [set_db mg_dead mg_todo mg_go mg_sent mg_errs mg_db]; [exact D|exists old, ks; auto|exact Go|].
    intros x w Fx P. destruct (K x w Fx (puts_mono _ _ _ P)) as (K1 & K2). split; [|exact K2].
    assert (x <> k) as Nk. { intros ->. apply P. exists v, p. apply in_or_app. right. left. reflexivity. }
    rewrite put_other by exact Nk. exact K1.
  - constructor; cbn [set_db mg_dead mg_todo mg_go mg_sent mg_errs mg_db]; [exact D|exists old, ks; auto|exact Go|].
    intros x w Fx P. destruct (K x w Fx (puts_mono _ _ _ P)) as (K1 & K2). split; [|exact K2].
    unfold bgrow. destruct (bo_pinned (mg_db m)); exact K1.
Qed.

Lemma minv_run : forall s0 sel ops done m, minv s0 sel done m ->
  (forall n, intact s0 (mg_db (xrun m (firstn n ops)))) -> minv s0 sel (done ++ ops) (xrun m ops).
Proof.
  intros s0 sel. induction ops as [|o r IH]; intros done m H I; [rewrite app_nil_r; exact H|].
  change (xrun m (o :: r)) with (xrun (xstep m o) r). replace (done ++ o :: r) with ((done ++ [o]) ++ r) by (rewrite <- app_assoc; reflexivity).
  apply IH.
  - apply minv_step; [exact H|exact (I 0)].
  - intros n. exact (I (S n)).
Qed.

Lemma safe_of : forall s0 sel ops, settled s0 -> (forall n, intact s0 (mg_db (xrun (mig_start s0 sel) (firstn n ops)))) ->
  safe_migration s0 sel ops.
Proof.
  intros s0 sel ops St I. pose proof (minv_run s0 sel ops [] _ (minv_start s0 sel St) I) as [D (old & ks & T & L & C) _ K].
  cbn [app] in K. split; [exact D|]. split; [|split].
  - intros k v F P. destruct (K k v F P) as ([K1|(_ & K1)] & _); auto.
  - intros k H. apply filter_In. rewrite L. apply in_or_app. left. apply C. left. exact H.
  - intros E k H S1. rewrite E in T. inversion T; subst. rewrite app_nil_r in L. apply C. rewrite <- L. apply filter_In. auto.
Qed.

Lemma safe_pinned : forall s0 sel ops, settled s0 -> bo_pinned s0 = true -> safe_migration s0 sel ops.
Proof.
  intros s0 sel ops St P. apply safe_of; [exact St|]. intros n.
  apply (held_run s0 (firstn n ops) (mig_start s0 sel)). repeat split; [exact P|left; reflexivity].
Qed.

Lemma writes_firstn : forall n ops, writes (firstn n ops) <= writes ops.
Proof.
  induction n as [|n IH]; intros [|o r]; cbn [firstn writes]; try lia. destruct o; specialize (IH r); lia.
Qed.

Lemma Forall_firstn : forall A (P : A -> Prop) n l, Forall P l -> Forall P (firstn n l).
Proof. intros A P. induction n as [|n IH]; intros [|x l] H; cbn; [constructor..|]. inversion H; subst. constructor; auto. Qed.

Lemma safe_few : forall s0 sel ops, settled s0 -> writes ops <= 1 -> Forall no_grow ops -> safe_migration s0 sel ops.
Proof.
  intros s0 sel ops St W F. apply safe_of; [exact St|]. intros n.
  apply (few_writes (firstn n ops) (mig_start s0 sel)); [pose proof (writes_firstn n ops); lia|apply Forall_firstn, F].
Qed.

(** ** Finding by hash *)

Section Find.
  Variable V : Type.
  Variable ver : str -> str -> option V.

  (** What is not stale is left alone. *)
  Definition kept (s0 s : bolt) : Prop :=
    forall k, stale ver k = false -> find_item k (bo_items s) = find_item k (bo_items s0).

  Lemma kept_delete : forall s0 s p k, kept s0 s -> stale ver k = true -> kept s0 (bdelete p k s).
  Proof.
    intros s0 s p k K S1 x Sx. rewrite delete_other; [apply K, Sx|congruence].
  Qed.

  Lemma find_held : forall s0 rs ks, Forall2 (ref_ok s0) rs ks -> Forall dotted ks -> forall pages s, held s0 s -> kept s0 s ->
    exists s', find_refs ver pages s rs = FDone s' (versions_of ver ks) /\ kept s0 s'.
  Proof.
    intros s0 rs ks F. induction F as [|r k rs ks R F IH]; intros Dt pages s H K; [exists s; auto|].
    inversion Dt as [|? ? Dk Dt']; subst. cbn [find_refs versions_of flat_map]. rewrite (R s (proj1 H)).
    unfold dotted in Dk. pose proof (kept_delete s0 s (hd 0 pages) k K) as KD. unfold stale in KD at 1.
    destruct (cut_last "."%char k) as [[name t]|]; [|congruence].
    destruct (ver name t) as [v|].
    - destruct (IH Dt' pages s H K) as (s' & -> & K'). exists s'. auto.
    - destruct (IH Dt' (tl pages) _ (held_delete s0 s (hd 0 pages) k H) (KD eq_refl)) as (s' & -> & K'). exists s'. auto.
  Qed.

  Lemma find_intact : forall s0 rs ks, Forall2 (ref_ok s0) rs ks -> Forall dotted ks ->
    Forall (fun k => stale ver k = false) ks -> forall pages s, intact s0 s ->
    find_refs ver pages s rs = FDone s (versions_of ver ks).
  Proof.
    intros s0 rs ks F. induction F as [|r k rs ks R F IH]; intros Dt St pages s H; [reflexivity|].
    inversion Dt as [|? ? Dk Dt']; subst. inversion St as [|? ? Sk St']; subst.
    cbn [find_refs versions_of flat_map]. rewrite (R s H).
    unfold dotted in Dk. unfold stale in Sk. destruct (cut_last "."%char k) as [[name t]|]; [|congruence].
    destruct (ver name t) as [v|]; [|discriminate Sk]. rewrite (IH Dt' St' pages s H). reflexivity.
  Qed.

  (** One removal at most. *)
  Lemma find_one : forall s0 rs ks, Forall2 (ref_ok s0) rs ks -> Forall dotted ks ->
    List.length (List.filter (stale ver) ks) <= 1 -> forall pages s,
    bo_mem s (bo_page s) = bo_mem s0 (bo_page s0) -> bo_page s = bo_page s0 -> bo_gen s = bo_gen s0 -> kept s0 s ->
    exists s', find_refs ver pages s rs = FDone s' (versions_of ver ks) /\ kept s0 s'.
  Proof.
    intros s0 rs ks F. induction F as [|r k rs ks R F IH]; intros Dt St pages s M P G K; [exists s; auto|].
    inversion Dt as [|? ? Dk Dt']; subst. cbn [List.filter] in St.
    assert (I : intact s0 s) by (split; congruence).
    cbn [find_refs versions_of flat_map]. rewrite (R s I).
    pose proof (kept_delete s0 s (hd 0 pages) k K) as KD. unfold stale in KD at 1.
    unfold dotted in Dk. unfold stale at 1 in St. destruct (cut_last "."%char k) as [[name t]|]; [|congruence].
    destruct (ver name t) as [v|].
    - destruct (IH Dt' St pages s M P G K) as (s' & -> & K'). exists s'. auto.
    - cbn [List.length] in St. eexists. split; [|exact (KD eq_refl)]. apply (find_intact s0 rs ks F Dt').
      + apply Forall_forall. intros x Hx. destruct (stale ver x) eqn:E; [|reflexivity]. exfalso.
        assert (In x (List.filter (stale ver) ks)) as Hf by (apply filter_In; auto).
        destruct (List.filter (stale ver) ks); [destruct Hf|cbn in St; lia].
      + apply one_delete; assumption.
  Qed.

  Lemma find_refs_of : forall s, settled s ->
    Forall2 (ref_ok s) (map fst (key_refs (bo_gen s) (bo_page s) (16 + 16 * List.length (bo_items s)) (bo_items s))) (map fst (bo_items s)).
  Proof.
    intros s St. rewrite <- (key_refs_keys (bo_gen s) (bo_page s) (bo_items s) (16 + 16 * List.length (bo_items s))).
    set (L := key_refs (bo_gen s) (bo_page s) (16 + 16 * List.length (bo_items s)) (bo_items s)).
    assert (forall r k, In (r, k) L -> ref_ok s r k) as OK by (intros r k H; apply (refs_ok s r k St H)).
    clearbody L. induction L as [|[r k] L IH]; [constructor|]. cbn. constructor; [apply OK; left; reflexivity|].
    apply IH. intros; apply OK; right; assumption.
  Qed.

  (** Two removals at the beginning, the second into the page read from. *)

  (** What the page of the slices holds: fewer keys, all of the same length. *)
  Definition shrunk (len n : nat) (l : list item) : Prop :=
    List.length l + 2 <= n /\ Forall (fun i : item => List.length (fst i) = len /\ snd i = []) l.

  Lemma body_length : forall len l, Forall (fun i : item => List.length (fst i) = len /\ snd i = []) l ->
    List.length (page_body l) = len * List.length l.
  Proof.
    intros len l H. induction H as [|[k v] l [E1 E2] _ IH]; [cbn; lia|]. cbn [fst snd] in *. subst v.
    change (page_body ((k, []) :: l)) with ((k ++ []) ++ page_body l). rewrite !app_length, IH. cbn [List.length]. lia.
  Qed.

  Lemma zeros_no_dot : forall n, cut_last "."%char (repeat nul n) = None.
  Proof. induction n as [|n IH]; [reflexivity|]. cbn [repeat cut_last]. rewrite IH. reflexivity. Qed.

  Lemma cutout_beyond : forall m off len, List.length m <= off -> cutout m off len = repeat nul len.
  Proof.
    intros m off len H. unfold cutout. rewrite skipn_all2 by exact H. cbn [app]. rewrite <- (repeat_length nul len) at 1.
    apply firstn_all.
  Qed.

  Lemma shrunk_filter : forall len n f l, shrunk len n l -> shrunk len n (List.filter f l).
  Proof.
    intros len n f l (H1 & H2). split.
    - assert (List.length (List.filter f l) <= List.length l); [|lia]. clear. induction l as [|x l IH]; [cbn; lia|]. cbn. destruct (f x); cbn; lia.
    - apply Forall_forall. intros x Hx. apply filter_In in Hx. apply (proj1 (Forall_forall _ _) H2). apply Hx.
  Qed.

  (** From then on the last key cannot be read. *)
  Definition spoilt (len n p0 g : nat) (s : bolt) : Prop :=
    bo_gen s = g /\ shrunk len n (bo_items s) /\ exists l, bo_mem s p0 = render l /\ shrunk len n l.

  Lemma spoilt_delete : forall len n p0 g p k s, spoilt len n p0 g s -> spoilt len n p0 g (bdelete p k s).
  Proof.
    intros len n p0 g p k s (G & I & l & M & L). unfold bdelete. destruct (find_item k (bo_items s)).
    - unfold bwrite. destruct (may_use s p); [|split; [exact G|split; [exact I|exists l; auto]]].
      split; [exact G|]. split; [apply shrunk_filter, I|]. cbn [bo_mem].
      destruct (p0 =? p); [|exists l; auto]. eexists. split; [reflexivity|]. apply shrunk_filter, I.
    - split; [exact G|]. split; [exact I|]. exists l. auto.
  Qed.

  Lemma spoilt_find : forall len n p0 g rs r, 0 < n -> r_gen r = g -> r_page r = p0 ->
    r_off r = 16 + 16 * n + len * (n - 1) -> Forall (fun x => r_gen x = g) rs -> forall pages s,
    spoilt len n p0 g s -> find_refs ver pages s (rs ++ [r]) = FPanic.
  Proof.
    intros len n p0 g rs r N Rg Rp Ro. induction rs as [|x rs IH]; intros F pages s S1.
    - cbn [app find_refs]. destruct S1 as (G & _ & l & M & (L1 & L2)). unfold deref. rewrite Rg, G, Nat.eqb_refl, Rp, M.
      rewrite cutout_beyond; [rewrite zeros_no_dot; reflexivity|].
      unfold render. rewrite app_length, repeat_length, (body_length len l L2), Ro.
      assert (len * List.length l <= len * (n - 1)) by (apply Nat.mul_le_mono_l; lia). lia.
    - inversion F as [|? ? Fx F']; subst. cbn [app find_refs]. unfold deref. destruct S1 as (G & S2) eqn:E. rewrite Fx, G, Nat.eqb_refl.
      destruct (cut_last _ _) as [[name t]|]; [|reflexivity]. destruct (ver name t) as [v|].
      + rewrite (IH F' pages s (conj G S2)). reflexivity.
      + apply (IH F'). apply spoilt_delete. split; [exact G|exact S2].
  Qed.
End Find.

Lemma key_refs_snoc : forall g p l off x, key_refs g p off (l ++ [x]) =
  key_refs g p off l ++ [(Ref g p (off + List.length (page_body l)) (List.length (fst x)), fst x)].
Proof.
  intros g p. induction l as [|[k v] l IH]; intros off [k' v']; cbn [app key_refs].
  - cbn. rewrite Nat.add_0_r. reflexivity.
  - rewrite IH. cbn [fst].
    replace (off + List.length (page_body ((k, v) :: l))) with (off + List.length k + List.length v + List.length (page_body l));
      [reflexivity|].
    change (page_body ((k, v) :: l)) with ((k ++ v) ++ page_body l). rewrite !app_length. lia.
Qed.

Lemma key_refs_gen : forall g p l off, Forall (fun x : ref => r_gen x = g) (map fst (key_refs g p off l)).
Proof. intros g p. induction l as [|[k v] l IH]; intros off; cbn; constructor; auto. Qed.

Lemma filter_first : forall k l, ~ In k l ->
  List.filter (fun i : item => negb (str_eqb k (fst i))) (map (fun k => (k, [])) (k :: l)) = map (fun k => (k, [])) l.
Proof.
  intros k l N. cbn [map List.filter fst]. rewrite str_eqb_refl. cbn [negb].
  induction l as [|x l IH]; [reflexivity|]. cbn [map List.filter fst].
  destruct (str_eqb k x) eqn:E; [apply str_eqb_eq in E; subst x; exfalso; apply N; left; reflexivity|]. cbn [negb]. f_equal.
  apply IH. intros H. apply N. right. exact H.
Qed.

Lemma two_stale : forall V (ver : str -> str -> option V) k0 k1 ks len p1 rest, ks <> [] ->
  Forall (fun k => List.length k = len) (k0 :: k1 :: ks) -> NoDup (k0 :: k1 :: ks) ->
  stale ver k0 = true -> stale ver k1 = true -> p1 <> 0 ->
  find_by ver (p1 :: 0 :: rest) (bolt_of (map (fun k => (k, [])) (k0 :: k1 :: ks)) false) = FPanic.
Proof.
  intros V ver k0 k1 ks len p1 rest Ne Len Nd S0 S1 P1.
  set (items := map (fun k => (k, [])) (k0 :: k1 :: ks)). set (s0 := bolt_of items false).
  assert (St : settled s0) by reflexivity.
  inversion Nd as [|? ? N0 Nd']; subst. inversion Nd' as [|? ? N1 _]; subst.
  unfold find_by. pose proof (find_refs_of s0 St) as F.
  change (map fst (bo_items s0)) with (map fst (map (fun k : str => (k, [] : str)) (k0 :: k1 :: ks))) in F.
  rewrite map_map in F. cbn [fst] in F. rewrite map_id in F.
  set (R := map fst (key_refs (bo_gen s0) (bo_page s0) (16 + 16 * List.length (bo_items s0)) (bo_items s0))) in *.
  assert (exists r0 r1 rs r, R = r0 :: r1 :: rs ++ [r] /\ Forall (fun x => r_gen x = 0) rs /\ r_gen r = 0 /\ r_page r = 0 /\
    r_off r = 16 + 16 * List.length items + len * (List.length items - 1)) as (r0 & r1 & rs & r & ER & Fr & Rg & Rp & Ro).
  { destruct (exists_last Ne) as (ks' & kl & Ek).
    assert (Ei : items = (k0, []) :: (k1, []) :: map (fun k => (k, [])) ks' ++ [(kl, [])]).
    { unfold items. rewrite Ek. cbn [map]. rewrite map_app. reflexivity. }
    unfold R. change (bo_items s0) with items. change (bo_gen s0) with 0. change (bo_page s0) with 0. 
    set (m := 16 * List.length items).
    assert (El : List.length items = S (S (S (List.length ks')))).
    { rewrite Ei. cbn [List.length]. rewrite app_length, map_length. cbn. lia. }
    rewrite Ei. cbn [key_refs map fst List.length]. rewrite key_refs_snoc, map_app. cbn [map fst].
    eexists _, _, _, _. split; [reflexivity|]. split; [apply key_refs_gen|]. split; [reflexivity|]. split; [reflexivity|].
    cbn [r_off]. rewrite (body_length len).
    - unfold m. rewrite El, !app_length, !map_length. cbn [List.length].
      pose proof (Forall_inv Len) as L0. pose proof (Forall_inv (Forall_inv_tail Len)) as L1. cbn beta in L0, L1. rewrite L0, L1.
      replace (S (S (List.length ks' + 1)) - 1) with (S (S (List.length ks'))) by lia. rewrite !Nat.mul_succ_r. lia.
    - apply Forall_forall. intros x Hx. apply in_map_iff in Hx as (y & <- & Hy). cbn. split; [|reflexivity].
      apply (proj1 (Forall_forall _ _) Len). right. right. rewrite Ek. apply in_or_app. left. exact Hy. }
  rewrite ER in *. inversion F as [|? ? ? ? F0 F1]; subst. inversion F1 as [|? ? ? ? F2 F3]; subst.
  assert (I0 : intact s0 s0) by (split; reflexivity).
  cbn [find_refs hd tl]. rewrite (F0 s0 I0).
  unfold stale in S0. destruct (cut_last "."%char k0) as [[nm0 t0]|]; [|discriminate S0]. destruct (ver nm0 t0); [discriminate S0|].
  set (s1 := bdelete p1 k0 s0).
  assert (E1 : s1 = Bolt (map (fun k => (k, [])) (k1 :: ks)) p1 (fun x => if x =? p1 then render (map (fun k => (k, [])) (k1 :: ks)) else bo_mem s0 x) [0] false 0).
  { unfold s1, bdelete. change (bo_items s0) with items. unfold items at 1. cbn [map find_item]. rewrite str_eqb_refl.
    unfold bwrite, may_use. change (bo_page s0) with 0. unfold released. change (bo_pinned s0) with false. cbn [existsb negb andb].
    apply Nat.eqb_neq in P1. rewrite P1. cbn [negb andb].
    pose proof (filter_first k0 (k1 :: ks) N0) as X. unfold items. unfold str in *. rewrite X. reflexivity. }
  assert (I1 : intact s0 s1).
  { rewrite E1. split; [|reflexivity]. cbn [bo_mem bo_page s0 bolt_of]. assert (0 <> p1) as P2 by congruence. apply Nat.eqb_neq in P2.
    change (bo_page s0) with 0. rewrite P2. reflexivity. }
  rewrite (F2 s1 I1).
  unfold stale in S1. destruct (cut_last "."%char k1) as [[nm1 t1]|]; [|discriminate S1]. destruct (ver nm1 t1); [discriminate S1|].
  apply (spoilt_find V ver len (List.length items) 0 0 rs r); [unfold items; cbn; lia|exact Rg|exact Rp|exact Ro|exact Fr|].
  assert (Sh : shrunk len (List.length items) (map (fun k => (k, [])) ks)).
  { split; [unfold items; rewrite !map_length; cbn [List.length]; lia|]. apply Forall_forall. intros x Hx. apply in_map_iff in Hx as (y & <- & Hy).
    split; [|reflexivity]. apply (proj1 (Forall_forall _ _) Len). right. right. exact Hy. }
  assert (E2 : bdelete 0 k1 s1 = Bolt (map (fun k => (k, [])) ks) 0 (fun x => if x =? 0 then render (map (fun k => (k, [])) ks) else bo_mem s1 x) [p1] false 0).
  { rewrite E1 at 1. unfold bdelete. cbn [bo_items map find_item]. rewrite str_eqb_refl.
    unfold bwrite, may_use, released. cbn [bo_page bo_pinned existsb negb andb bo_mem bo_pend bo_gen].
    assert (0 <> p1) as P2 by congruence. apply Nat.eqb_neq in P2. rewrite P2. cbn [negb andb].
    pose proof (filter_first k1 ks N1) as X. cbn [map] in X. unfold str in *. rewrite X, E1. reflexivity. }
  rewrite E2. split; [reflexivity|]. split; [exact Sh|]. eexists. split; [reflexivity|exact Sh].
Qed.

(** ** The statements *)

Lemma found_pinned : forall V (ver : str -> str -> option V) s pages,
  settled s -> bo_pinned s = true -> Forall dotted (map fst (bo_items s)) ->
  exists s', find_by ver pages s = FDone s' (versions_of ver (map fst (bo_items s))) /\
             forall k, stale ver k = false -> find_item k (bo_items s') = find_item k (bo_items s).
Proof.
  intros V ver s pages St P D. apply (find_held V ver s _ _ (find_refs_of s St) D); [|intros k _; reflexivity].
  split; [split; reflexivity|]. auto.
Qed.

Lemma found_one : forall V (ver : str -> str -> option V) s pages,
  settled s -> Forall dotted (map fst (bo_items s)) ->
  List.length (List.filter (stale ver) (map fst (bo_items s))) <= 1 ->
  exists s', find_by ver pages s = FDone s' (versions_of ver (map fst (bo_items s))) /\
             forall k, stale ver k = false -> find_item k (bo_items s') = find_item k (bo_items s).
Proof.
  intros V ver s pages St D L. apply (find_one V ver s _ _ (find_refs_of s St) D L); try reflexivity. intros k _; reflexivity.
Qed.

Lemma grown_dies : forall l sel ack, existsb (fun i : str * str => sel (fst i)) l = true ->
  mg_dead (xrun (mig_start (bolt_of l false) sel) [XGrow; XNext ack]) = true.
Proof.
  intros l sel ack H. unfold mig_start. change (bo_gen (bolt_of l false)) with 0. change (bo_items (bolt_of l false)) with l.
  change (bo_page (bolt_of l false)) with 0. generalize (16 + 16 * List.length l) as off.
  assert (E : forall off, exists r rest, map fst (List.filter (fun x : ref * str => sel (snd x)) (key_refs 0 0 off l)) = r :: rest /\ r_gen r = 0).
  { induction l as [|[k v] l IH]; intros off; [discriminate H|]. cbn [existsb fst] in H. cbn [key_refs List.filter snd].
    destruct (sel k); [eexists _, _; split; reflexivity|]. apply IH, H. }
  intros off. destruct (E off) as (r & rest & -> & G). cbn [xrun fold_left xstep mg_dead set_db mg_todo mg_db].
  unfold deref. rewrite G. reflexivity.
Qed.
