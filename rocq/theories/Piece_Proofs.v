(** Proofs about uploads of pieces and the counter of stored bytes. *)
From Verif Require Import Str_Model Piece_Model Piece_Spec.
From stdpp Require Import gmap.
Local Open Scope list_scope.

(** ** Lists *)

Lemma elem_of_delete : forall {A} (l : list A) k (x y : A), l !! k = Some y -> x ∈ l -> x <> y -> x ∈ delete k l.
Proof.
  intros A l k x y K X N. apply elem_of_list_lookup in X as [i X].
  rewrite <- (take_drop_middle l k y K) in X |- *.
  rewrite delete_middle || idtac.
  assert (k < length l)%nat as L by (by eapply lookup_lt_Some).
  replace k with (length (take k l)) at 1 by (rewrite take_length; lia).
  rewrite delete_middle. apply elem_of_list_lookup_2 in X.
  apply elem_of_app in X as [X|X]; [apply elem_of_app; by left|].
  apply elem_of_cons in X as [X|X]; [done|]. apply elem_of_app. by right.
Qed.

Lemma elem_of_delete_sub : forall {A} (l : list A) k (x : A), x ∈ delete k l -> x ∈ l.
Proof.
  intros A l. induction l as [|y l IH]; intros k x H; [done|]. destruct k as [|k]; [by right|].
  apply elem_of_cons in H as [->|H]; [by left|]. right. by eapply IH.
Qed.

(** ** Temporary files *)

(** Entries stand under their ids. *)
Definition wf (s : pstate) : Prop := forall id ti, ps_cache s !! id = Some ti -> ti_id ti = id.

Lemma drop_cache : forall id s i, ps_cache (drop_entry id s) !! i = if bool_decide (i = id) then None else ps_cache s !! i.
Proof.
  intros id s i. unfold drop_entry. destruct (ps_cache s !! id) as [ti|] eqn:E; cbn.
  - case_bool_decide as D; [subst; apply lookup_delete|by apply lookup_delete_ne].
  - case_bool_decide as D; [by subst|done].
Qed.

Lemma drop_temp : forall id s, ps_temp (drop_entry id s) = ps_temp s.
Proof. intros id s. unfold drop_entry. by destruct (ps_cache s !! id). Qed.

Lemma drop_objs : forall id s, ps_objs (drop_entry id s) = ps_objs s.
Proof. intros id s. unfold drop_entry. by destruct (ps_cache s !! id). Qed.

Lemma drop_events : forall id s ti, ti ∈ ps_events (drop_entry id s) <-> ti ∈ ps_events s \/ ps_cache s !! id = Some ti.
Proof.
  intros id s ti. unfold drop_entry. destruct (ps_cache s !! id) as [ti'|] eqn:E; cbn.
  - rewrite elem_of_app, elem_of_list_singleton. split; [intros [H| ->]; auto|intros [H|[= ->]]; auto].
  - split; [auto|intros [H|H]; [done|discriminate H]].
Qed.

Lemma commit_cache : forall c ti id z s, ps_cache (fst (commit c ti id z s)) = ps_cache s.
Proof.
  intros c ti id z s. unfold commit. destruct (ps_objs s !! _); [done|]. destruct (ps_temp s !! _) as [x|]; [|done].
  destruct z; [|done]. by destruct x.
Qed.

Lemma commit_events : forall c ti id z s, ps_events (fst (commit c ti id z s)) = ps_events s.
Proof.
  intros c ti id z s. unfold commit. destruct (ps_objs s !! _); [done|]. destruct (ps_temp s !! _) as [x|]; [|done].
  destruct z; [|done]. by destruct x.
Qed.

Lemma commit_temp : forall c ti id z s k, ps_temp (fst (commit c ti id z s)) !! k = ps_temp s !! k \/
  (k = (ti_mp ti, id) /\ ps_temp (fst (commit c ti id z s)) !! k = None).
Proof.
  intros c ti id z s k. unfold commit. destruct (ps_objs s !! _); [by left|].
  destruct (ps_temp s !! (ti_mp ti, id)) as [x|]; [|by left].
  destruct z; [destruct x; by left|]. cbn. destruct (decide (k = (ti_mp ti, id))) as [->|N].
  - right. split; [done|]. apply lookup_delete.
  - left. by rewrite lookup_delete_ne.
Qed.

Lemma wf_step : forall c s o, wf s -> wf (fst (pstep c s o)).
Proof.
  intros c s o W. destruct o as [name size mp id|id body a|id|id|id z|id|k|]; cbn.
  - destruct size; [done|]. cbn. intros i ti H. cbn in H. destruct (decide (i = id)) as [->|N].
    + rewrite lookup_insert in H. by injection H as <-.
    + rewrite lookup_insert_ne in H by done. by apply W.
  - unfold patch. destruct (ps_cache s !! id); [|done]. by destruct body.
  - done.
  - destruct (ps_cache s !! id); [|done]. intros i ti H. cbn in H. rewrite drop_cache in H.
    case_bool_decide; [done|by apply W].
  - unfold put. destruct (ps_cache s !! id) as [t|]; [|done].
    pose proof (commit_cache c t id z s) as C. destruct (commit c t id z s) as [s' st]. cbn in C.
    destruct (st =? 200)%Z; intros i ti H; cbn in H.
    + rewrite drop_cache in H. case_bool_decide; [done|]. rewrite C in H. by apply W.
    + rewrite C in H. by apply W.
  - intros i ti H. rewrite drop_cache in H. case_bool_decide; [done|by apply W].
  - by destruct (ps_events s !! k).
  - intros i ti H. done.
Qed.

Record tidy (c : pconf) (s : pstate) : Prop := mk_tidy {
  td_wf : wf s;
  td_cache : forall id ti, ps_cache s !! id = Some ti -> ti_mp ti = pc_base c;
  td_temp : forall mp id x, ps_temp s !! (mp, id) = Some x ->
    mp = pc_base c /\ ((exists ti, ps_cache s !! id = Some ti) \/ (exists ti, ti ∈ ps_events s /\ ti_id ti = id)) }.

Lemma drop_tidy : forall c id s, tidy c s -> tidy c (drop_entry id s).
Proof.
  intros c id s [W C T]. split.
  - intros i ti H. rewrite drop_cache in H. case_bool_decide; [done|by apply W].
  - intros i ti H. rewrite drop_cache in H. case_bool_decide; [done|by eapply C].
  - intros mp i x H. rewrite drop_temp in H. apply T in H as [H1 H2]. split; [done|].
    destruct H2 as [[ti H2]|(ti & H2 & H3)].
    + destruct (decide (i = id)) as [->|N].
      * right. exists ti. split; [apply drop_events; by right|by apply W].
      * left. exists ti. rewrite drop_cache. by rewrite bool_decide_eq_false_2.
    + right. exists ti. split; [apply drop_events; by left|done].
Qed.

Lemma tidy_step : forall c s o, tidy_op c o -> tidy c s -> tidy c (fst (pstep c s o)).
Proof.
  intros c s o O H. pose proof (wf_step c s o (td_wf c s H)) as W.
  destruct o as [name size mp id|id body a|id|id|id z|id|k|]; cbn in *.
  - destruct size as [|size]; [done|]. destruct H as [_ C T]. split; [exact W| |].
    + cbn. intros i ti E. destruct (decide (i = id)) as [->|N].
      * rewrite lookup_insert in E. by injection E as <-.
      * rewrite lookup_insert_ne in E by done. by eapply C.
    + cbn. intros m i x E. apply T in E as [E1 E2]. split; [done|]. destruct E2 as [[ti E2]|E2]; [|by right].
      left. destruct (decide (i = id)) as [->|N]; [rewrite lookup_insert; eauto|].
      rewrite lookup_insert_ne by done. eauto.
  - unfold patch in *. destruct (ps_cache s !! id) as [ti|] eqn:E; [|done].
    destruct body as [|b body]; [done|]. destruct H as [_ C T]. split; [exact W|exact C|].
    cbn. intros m i x L. destruct (decide ((m, i) = (ti_mp ti, id))) as [D|D].
    + injection D as -> ->. split; [by eapply C|]. left. eauto.
    + rewrite lookup_insert_ne in L by done. by eapply T.
  - done.
  - destruct (ps_cache s !! id); [|done]. by apply drop_tidy.
  - unfold put in *. destruct (ps_cache s !! id) as [ti|]; [|done].
    pose proof (commit_cache c ti id z s) as CC. pose proof (commit_events c ti id z s) as CE.
    pose proof (commit_temp c ti id z s) as CT.
    destruct (commit c ti id z s) as [s' st]. cbn in CC, CE, CT.
    assert (tidy c s') as T'.
    { destruct H as [W0 C T]. split.
      - intros i t X. rewrite CC in X. by apply W0.
      - intros i t X. rewrite CC in X. by eapply C.
      - intros m i x X. destruct (CT (m, i)) as [Y|[_ Y]]; [|congruence]. rewrite Y in X.
        rewrite CC, CE. by eapply T. }
    destruct (st =? 200)%Z; [|done]. by apply drop_tidy.
  - by apply drop_tidy.
  - destruct (ps_events s !! k) as [ti|] eqn:E; [|done]. destruct H as [_ C T]. split; [exact W|exact C|].
    cbn. intros m i x L. rewrite lookup_delete_Some in L. destruct L as [N L]. apply T in L as [-> L]. split; [done|].
    destruct L as [L|(t & L1 & L2)]; [by left|]. right. exists t. split; [|done].
    apply (elem_of_delete _ k t ti E L1). intros ->. apply N. by rewrite L2.
  - done.
Qed.

Lemma tidy_run : forall c h s, Forall (tidy_op c) h -> tidy c s -> tidy c (prun c h s).
Proof.
  intros c h. induction h as [|o h IH]; intros s F T; [done|]. apply Forall_cons in F as [F1 F2].
  apply IH; [done|]. by apply tidy_step.
Qed.

Lemma tidy_0 : forall c, tidy c p0.
Proof. intros c. split; done. Qed.

Lemma no_leftover_run : forall c h, Forall (tidy_op c) h -> ps_events (prun c h p0) = [] -> no_leftover (prun c h p0).
Proof.
  intros c h F E. destruct (tidy_run c h p0 F (tidy_0 c)) as [W C T]. intros mp id x L.
  apply T in L as [-> [[ti L]|(ti & L & _)]].
  - exists ti. split; [done|]. by eapply C.
  - rewrite E in L. by apply elem_of_nil in L.
Qed.

(** The notifications can always be worked off. *)
Lemma clean_all : forall c s, exists n, ps_events (prun c (replicate n (OClean 0)) s) = [].
Proof.
  intros c s. remember (ps_events s) as l eqn:E. revert s E. induction l as [|ti l IH]; intros s E.
  - exists 0. done.
  - destruct (IH (fst (pstep c s (OClean 0)))) as [n H].
    { cbn. rewrite <- E. done. }
    exists (S n). exact H.
Qed.

(** A file elsewhere than where the cleaner looks stays. *)
Lemma stays : forall c h s mp id x, mp <> pc_base c ->
  Forall (fun o => match o with OPut i _ => i <> id | OPatch i _ _ => i <> id | _ => True end) h ->
  ps_temp s !! (mp, id) = Some x -> ps_temp (prun c h s) !! (mp, id) = Some x.
Proof.
  intros c h. induction h as [|o h IH]; intros s mp id x N F L; [done|]. apply Forall_cons in F as [F1 F2].
  apply IH; [done|done|]. destruct o as [name size m i|i body a|i|i|i z|i|k|]; cbn.
  - by destruct size.
  - unfold patch. destruct (ps_cache s !! i) as [ti|]; [|done]. destruct body; [done|]. cbn.
    rewrite lookup_insert_ne; [done|]. intros [= _ E]. by subst.
  - done.
  - destruct (ps_cache s !! i); [|done]. cbn. by rewrite drop_temp.
  - unfold put. destruct (ps_cache s !! i) as [ti|]; [|done].
    pose proof (commit_temp c ti i z s (mp, id)) as CT. destruct (commit c ti i z s) as [s' st]. cbn in CT.
    assert (ps_temp s' !! (mp, id) = Some x) as X.
    { destruct CT as [->|[[= _ E] _]]; [done|by subst]. }
    destruct (st =? 200)%Z; cbn; [by rewrite drop_temp|done].
  - by rewrite drop_temp.
  - destruct (ps_events s !! k) as [ti|]; [|done]. cbn. rewrite lookup_delete_ne; [done|]. intros [= E _]. by subst.
  - done.
Qed.

(** ** What a commit stores *)

Record ongoing (c : pconf) (id : str) (ti : tinfo) (file : option str) (s : pstate) : Prop := mk_ongoing {
  og_wf : wf s;
  og_cache : ps_cache s !! id = Some ti;
  og_events : forall t, t ∈ ps_events s -> ti_id t <> id;
  og_temp : ps_temp s !! (ti_mp ti, id) = file }.

Definition grow (page : nat) (file : option str) (l : list (str * option nat)) : option str :=
  match l with [] => file | _ => Some (default ([] : str) file ++ content page l) end.

Lemma content_cons : forall page x l, content page (x :: l) = pad page (arriving (fst x) (snd x)) ++ content page l.
Proof. done. Qed.

Lemma bodies_cons : forall id o h, bodies id (o :: h) =
  (match o with OPatch id' b a => if bool_decide (id' = id) then match b with [] => [] | _ => [(b, a)] end else [] | _ => [] end)
  ++ bodies id h.
Proof. done. Qed.

Lemma drop_ongoing : forall c id ti file s i, i <> id -> ongoing c id ti file s -> ongoing c id ti file (drop_entry i s).
Proof.
  intros c id ti file s i N [W C E T]. split.
  - intros j t H. rewrite drop_cache in H. case_bool_decide; [done|by apply W].
  - rewrite drop_cache. by rewrite bool_decide_eq_false_2.
  - intros t H. apply drop_events in H as [H|H]; [by apply E|]. apply W in H. by subst.
  - by rewrite drop_temp.
Qed.

Lemma ongoing_step : forall c id ti file s o, leaves id o -> ongoing c id ti file s ->
  ongoing c id ti (grow (pc_page c) file (bodies id [o])) (fst (pstep c s o)).
Proof.
  intros c id ti file s o L G. pose proof (wf_step c s o (og_wf _ _ _ _ _ G)) as W. rewrite bodies_cons, app_nil_r.
  destruct o as [name size mp i|i body a|i|i|i z|i|k|]; cbn in *.
  - destruct size; [done|]. destruct G as [_ C E T]. split; [exact W| |exact E|exact T].
    cbn. by rewrite lookup_insert_ne.
  - unfold patch in *. case_bool_decide as D.
    + subst i. destruct G as [W0 C E T]. rewrite C in W |- *. destruct body as [|b body].
      * cbn. by split.
      * cbn. split; [exact W|exact C|exact E|]. cbn.
        rewrite lookup_insert, T. unfold content. cbn. by rewrite app_nil_r.
    + cbn. destruct G as [W0 C E T]. destruct (ps_cache s !! i) as [t|] eqn:X; [|by split].
      destruct body as [|b body]; [by split|]. split; [exact W|exact C|exact E|]. cbn.
      rewrite lookup_insert_ne; [exact T|]. intros [= _ ->]. done.
  - done.
  - destruct (ps_cache s !! i); [|done]. by apply drop_ongoing.
  - unfold put in *. destruct (ps_cache s !! i) as [t|]; [|done].
    pose proof (commit_cache c t i z s) as CC. pose proof (commit_events c t i z s) as CE.
    pose proof (commit_temp c t i z s) as CT. destruct (commit c t i z s) as [s' st]. cbn in CC, CE, CT.
    assert (ongoing c id ti file s') as G'.
    { destruct G as [W0 C E T]. split.
      - intros j u H. rewrite CC in H. by apply W0.
      - by rewrite CC.
      - by rewrite CE.
      - destruct (CT (ti_mp ti, id)) as [->|[[= _ ->] _]]; done. }
    destruct (st =? 200)%Z; [|done]. by apply drop_ongoing.
  - by apply drop_ongoing.
  - destruct (ps_events s !! k) as [t|] eqn:K; [|done]. destruct G as [_ C E T]. split; [exact W|exact C| |]; cbn.
    + intros u U. apply E. by eapply elem_of_delete_sub.
    + rewrite lookup_delete_ne; [done|]. intros [= _ X]. apply (E t); [by eapply elem_of_list_lookup_2|done].
  - done.
Qed.

Lemma content_app : forall page a b, content page (a ++ b) = content page a ++ content page b.
Proof.
  intros page a b. induction a as [|x a IH]; [done|]. cbn [app]. rewrite !content_cons, IH. by rewrite app_assoc.
Qed.

Lemma grow_app : forall page file a b, grow page (grow page file a) b = grow page file (a ++ b).
Proof.
  intros page file a b. destruct a as [|x a]; [done|]. destruct b as [|y b]; [by rewrite app_nil_r|].
  transitivity (Some ((default ([] : str) file ++ content page (x :: a)) ++ content page (y :: b))); [done|].
  transitivity (Some (default ([] : str) file ++ content page ((x :: a) ++ y :: b))); [|done].
  rewrite content_app. by rewrite app_assoc.
Qed.

Lemma ongoing_run : forall c id ti h file s, Forall (leaves id) h -> ongoing c id ti file s ->
  ongoing c id ti (grow (pc_page c) file (bodies id h)) (prun c h s).
Proof.
  intros c id ti h. induction h as [|o h IH]; intros file s F G; [done|]. apply Forall_cons in F as [F1 F2].
  apply (ongoing_step c id ti file s o F1) in G. apply (IH _ _ F2) in G. rewrite grow_app in G.
  rewrite (bodies_cons id o []), app_nil_r, <- bodies_cons in G. exact G.
Qed.

(** Nothing is known of an id that was not used. *)
Record blank (id : str) (s : pstate) : Prop := mk_blank {
  bl_wf : wf s;
  bl_cache : ps_cache s !! id = None;
  bl_events : forall t, t ∈ ps_events s -> ti_id t <> id;
  bl_temp : forall mp, ps_temp s !! (mp, id) = None }.

Lemma drop_blank : forall id s i, blank id s -> blank id (drop_entry i s).
Proof.
  intros id s i [W C E T]. split.
  - intros j t H. rewrite drop_cache in H. case_bool_decide; [done|by apply W].
  - rewrite drop_cache. by case_bool_decide.
  - intros t H. apply drop_events in H as [H|H]; [by apply E|]. pose proof (W _ _ H) as X. intros Y. rewrite Y in X. subst. congruence.
  - intros mp. by rewrite drop_temp.
Qed.

Lemma blank_step : forall c id s o, match o with OPost _ _ _ i => i <> id | _ => True end -> blank id s -> blank id (fst (pstep c s o)).
Proof.
  intros c id s o O G. pose proof (wf_step c s o (bl_wf _ _ G)) as W.
  destruct o as [name size mp i|i body a|i|i|i z|i|k|]; cbn in *.
  - destruct size; [done|]. destruct G as [_ C E T]. split; [exact W| |exact E|exact T]. cbn. by rewrite lookup_insert_ne.
  - unfold patch in *. destruct (ps_cache s !! i) as [t|] eqn:X; [|done]. destruct body as [|b body]; [done|].
    destruct G as [_ C E T]. split; [exact W|exact C|exact E|]. cbn. intros m. rewrite lookup_insert_ne; [done|].
    intros [= _ ->]. congruence.
  - done.
  - destruct (ps_cache s !! i); [|done]. by apply drop_blank.
  - unfold put in *. destruct (ps_cache s !! i) as [t|]; [|done].
    pose proof (commit_cache c t i z s) as CC. pose proof (commit_events c t i z s) as CE.
    pose proof (commit_temp c t i z s) as CT. destruct (commit c t i z s) as [s' st]. cbn in CC, CE, CT.
    assert (blank id s') as G'.
    { destruct G as [W0 C E T]. split.
      - intros j u H. rewrite CC in H. by apply W0.
      - by rewrite CC.
      - by rewrite CE.
      - intros m. destruct (CT (m, id)) as [->|[_ X]]; [apply T|exact X]. }
    destruct (st =? 200)%Z; [|done]. by apply drop_blank.
  - by apply drop_blank.
  - destruct (ps_events s !! k) as [t|] eqn:K; [|done]. destruct G as [_ C E T]. split; [exact W|exact C| |]; cbn.
    + intros u U. apply E. by eapply elem_of_delete_sub.
    + intros m. apply lookup_delete_None. right. apply T.
  - destruct G as [_ C E T]. split; [exact W|done| |exact T]. cbn. intros t X. by apply elem_of_nil in X.
Qed.

Lemma blank_run : forall c id h s, unused id h -> blank id s -> blank id (prun c h s).
Proof.
  intros c id h. induction h as [|o h IH]; intros s F G; [done|]. apply Forall_cons in F as [F1 F2].
  apply IH; [done|]. by apply blank_step.
Qed.

Lemma blank_0 : forall id, blank id p0.
Proof. intros id. split; try done. cbn. intros t X. by apply elem_of_nil in X. Qed.

Lemma post_ongoing : forall c id name size mp s, 0 < size -> blank id s ->
  ongoing c id (mk_tinfo id name size mp) None (fst (pstep c s (OPost name size mp id))).
Proof.
  intros c id name size mp s P G. pose proof (wf_step c s (OPost name size mp id) (bl_wf _ _ G)) as W.
  destruct G as [_ C E T]. destruct size; [lia|]. cbn in *. split; [exact W|cbn; apply lookup_insert|exact E|apply T].
Qed.

(** ** Padding *)

Lemma pad_full : forall page s, 0 < page -> length s mod page = 0 -> pad page s = s.
Proof.
  intros page s P E. unfold pad. rewrite E, Nat.sub_0_r, Nat.mod_same by lia. apply app_nil_r.
Qed.

Lemma pad_app : forall page a b, 0 < page -> length a mod page = 0 -> pad page (a ++ b) = a ++ pad page b.
Proof.
  intros page a b P E. unfold pad. rewrite <- app_assoc. do 4 f_equal. rewrite app_length, Nat.add_mod, E by lia.
  cbn. by rewrite Nat.mod_mod by lia.
Qed.

Lemma content_aligned : forall page l, 0 < page -> l <> [] -> aligned page l ->
  content page l = pad page (List.concat (map fst l)).
Proof.
  intros page l P. induction l as [|[b a] l IH]; intros N A; [done|]. destruct l as [|y l].
  - cbn in A. subst a. unfold content. cbn. by rewrite !app_nil_r.
  - destruct A as (-> & A1 & A2). rewrite content_cons. cbn [fst snd arriving]. rewrite IH by done.
    rewrite pad_full by done. change (List.concat (map fst ((b, None) :: y :: l))) with (b ++ List.concat (map fst (y :: l))).
    by rewrite pad_app.
Qed.

(** ** The counter *)

Lemma total_insert : forall m name n, m !! name = None -> total_size (<[name := n]> m) = (n + total_size m)%Z.
Proof. intros m name n H. unfold total_size. apply map_fold_insert_L; [intros; lia|done]. Qed.

Lemma total_delete : forall m name n, m !! name = Some n -> total_size (delete name m) = (total_size m - n)%Z.
Proof.
  intros m name n H. assert (total_size m = n + total_size (delete name m))%Z as ->; [|lia].
  rewrite <- (total_insert (delete name m) name n) by apply lookup_delete. by rewrite insert_delete.
Qed.

Lemma settled_step : forall s o, settled s -> plain_op s o -> settled (cap_run [o; CRun 0] s).
Proof.
  intros s o [P C] O. unfold settled, cap_run. cbn [fold_left].
  destruct o as [name plain file z|name plain file z|name|name size|k|dirs]; cbn in O; subst; cbn [cap_step].
  - destruct (cs_objs s !! name) as [n|] eqn:E; [cbn; by rewrite P|]. cbn. rewrite P. cbn. split; [done|].
    rewrite total_insert by done. lia.
  - destruct (cs_objs s !! name) as [n|] eqn:E; [cbn; by rewrite P|]. cbn. rewrite P. cbn. split; [done|].
    rewrite lookup_insert. cbn. rewrite total_insert by done. lia.
  - destruct (cs_objs s !! name) as [n|] eqn:E; [|cbn; by rewrite P]. cbn. rewrite P. cbn. split; [done|].
    rewrite (total_delete _ _ n) by done. lia.
  - cbn. rewrite P. cbn. split; [done|]. rewrite total_insert by done. lia.
  - assert (cs_pend s !! k = None) as K by (rewrite P; apply lookup_nil). rewrite K. rewrite P. cbn. done.
  - cbn. split; [done|]. lia.
Qed.

Lemma settled_run : forall ops s, settled s -> prompt s ops -> settled (cap_run (promptly ops) s).
Proof.
  induction ops as [|o ops IH]; intros s S P; [done|]. destruct P as [P1 P2].
  change (promptly (o :: ops)) with ([o; CRun 0] ++ promptly ops). unfold cap_run. rewrite fold_left_app.
  apply IH; [by apply settled_step|exact P2].
Qed.
