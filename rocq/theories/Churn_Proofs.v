From Verif Require Import Str_Model Str_Proofs Meta_Model Meta_Spec Meta_Proofs Meta_History Meta_Ids Retain_Model Retain_Proofs Churn_Model Churn_Spec.
From stdpp Require Import gmap sorting.

Local Arguments dispatch : simpl never.
Local Arguments get_extra : simpl never.
Local Arguments put_obj : simpl never.

(** ** The three requests on the store *)

Lemma stored_range : forall K d s id o k, sim d s -> inv K d -> s_objs s !! id = Some o ->
  is_Some (o_vers o !! k) -> (1 <= k <= o_next o)%N.
Proof.
  intros K d s id o k S I Ho [w Hw]. pose proof S as (_ & V & _).
  assert (Hb : d_vers d !! id = Some (vb_of id o)) by (rewrite V, Ho; done).
  destruct (I _ _ Hb) as [_ I2].
  assert (vb_map (vb_of id o) !! vkey id k = Some w) as X by (cbn; by rewrite kmap_get).
  apply I2 in X as [X ?]. apply vkey_inj in X. cbn in *. lia.
Qed.

Lemma next_le : forall K d s id o, sim d s -> inv K d -> s_objs s !! id = Some o -> (o_next o <= K)%N.
Proof.
  intros K d s id o S I Ho. pose proof S as (_ & V & _).
  assert (Hb : d_vers d !! id = Some (vb_of id o)) by (rewrite V, Ho; done).
  by destruct (I _ _ Hb).
Qed.

Lemma read_facts : forall K d s id, sim d s -> inv K d -> (K < 2 ^ 63)%N -> id <> ([] : str) ->
  match get_extra id d with
  | None => s_objs s !! id = None
  | Some (t, f, _) => exists o, s_objs s !! id = Some o /\ t = size (o_vers o) /\
      ((o_vers o = ∅ /\ f = 0%Z) \/ exists n, f = Z.of_N n /\ is_Some (o_vers o !! n))
  end.
Proof.
  intros K d s id S I HK Hid. pose proof S as (_ & V & _). pose proof pow63_64.
  destruct (s_objs s !! id) as [o|] eqn:Ho.
  - assert (Hb : d_vers d !! id = Some (vb_of id o)) by (rewrite V, Ho; done).
    destruct (decide (o_vers o = ∅)) as [E|E].
    + unfold get_extra. rewrite Hb. unfold vb_of. cbn [vb_map vb_seq]. rewrite E.
      unfold kmap. rewrite ?kmap_empty. eexists. split; [done|]. rewrite E.
      split; [by vm_compute|]. left. split; [done|]. by vm_compute.
    + apply map_choose in E as (n & v & Hn).
      assert (He : exists n, has_version d id n) by (exists n; apply (sim_has d s id o); [done|done|by eexists]).
      destruct (extra_numbers K d id I HK Hid He) as [total X].
      destruct (first_number_text K d id I) as [F1 _]; [lia|done|].
      assert (total = size (o_vers o)) as ->.
      { unfold get_extra in X. rewrite Hb in X. cbn in X. injection X as <- _. apply size_kmap_vkey. }
      rewrite X. exists o. split; [done|]. split; [done|]. right. eexists. split; [done|].
      by apply (sim_has d s id o).
  - unfold get_extra. assert (d_vers d !! id = None) as -> by (rewrite V, Ho; done). done.
Qed.

Definition added (o : obj) (v : version) : obj :=
  mk_obj (o_meta o) (o_next o + 1) (<[ (o_next o + 1)%N := with_seq (o_next o + 1) v ]> (o_vers o)).

Lemma add_facts : forall K d s id o v, sim d s -> inv K d -> (K + 1 < 2 ^ 63)%N -> s_objs s !! id = Some o ->
  wf_ver v -> uid_exists d (v_uid v) = false ->
  exists d', dispatch (command true (AddVersion id v)) d = (d', RStatus 200 (Some (o_next o + 1)%N)) /\
    sim d' (put_obj id (added o v) s) /\ effect d (AddVersion id v) d'.
Proof.
  intros K d s id o v S I HK Ho Hw Hu. pose proof pow63_64.
  pose proof (next_le K d s id o S I Ho) as L.
  assert (Hk : o_vers o !! (o_next o + 1)%N = None).
  { destruct (o_vers o !! (o_next o + 1)%N) eqn:X; [|done].
    assert (1 <= o_next o + 1 <= o_next o)%N by (eapply stored_range; eauto). lia. }
  destruct (call_sim true (AddVersion id v) d s S) as [A S'].
  pose proof (dispatch_effect true (AddVersion id v) d) as E.
  destruct (dispatch (command true (AddVersion id v)) d) as [d' a]. cbn [fst snd] in *.
  revert A S'. cbn [dup_of spec_call]. rewrite Ho, Hu. cbn [negb andb].
  rewrite N.mod_small by lia. rewrite Hk, (wf_present _ Hw). cbn [fst snd].
  intros -> S'. exists d'. done.
Qed.

Lemma insert_facts : forall d s id m, sim d s -> s_objs s !! id = None -> id <> ([] : str) ->
  exists d' x, dispatch (command true (AddMetadata id m)) d = (d', RStatus 200 x) /\
    sim d' (put_obj id (mk_obj m 0 ∅) s) /\ effect d (AddMetadata id m) d'.
Proof.
  intros d s id m S Ho Hid. destruct (call_sim true (AddMetadata id m) d s S) as [A S'].
  pose proof (dispatch_effect true (AddMetadata id m) d) as E.
  destruct (dispatch (command true (AddMetadata id m)) d) as [d' a]. cbn [fst snd] in *.
  revert A S'. cbn [dup_of spec_call]. rewrite Ho, bool_decide_false by done. cbn [fst snd].
  intros -> S'. unfold ok. eauto.
Qed.

Definition cut_at (n : N) (o : obj) : obj := mk_obj (o_meta o) (o_next o) (delete n (o_vers o)).

Lemma remove_facts : forall d s id o n, sim d s -> s_objs s !! id = Some o ->
  exists d', fst (dispatch (command true (RemoveVersion id n)) d) = d' /\
    sim d' (put_obj id (cut_at n o) s) /\ effect d (RemoveVersion id n) d'.
Proof.
  intros d s id o n S Ho. destruct (call_sim true (RemoveVersion id n) d s S) as [_ S'].
  pose proof (dispatch_effect true (RemoveVersion id n) d) as E. eexists. split; [done|]. split; [|done].
  revert S'. cbn [dup_of spec_call]. rewrite Ho. destruct (o_vers o !! n) eqn:X; cbn [fst]; [done|].
  unfold cut_at. rewrite (delete_notin _ _ X). unfold put_obj. destruct o, s. cbn in *. by rewrite (insert_id _ _ _ Ho).
Qed.

(** ** What holds for every upload *)

Definition spent (p : phase) : bool :=
  match p with Removing _ _ | Finished _ | Broken => true | _ => false end.

Definition number (p : phase) : option N :=
  match p with Removing n _ | Finished n => Some n | _ => None end.

Definition weight (p : phase) : Z :=
  match p with Removing _ f => if (0 <? f)%Z then 1 else 0 | _ => 0 end.

Definition holds (v : version) (n : N) (o : obj) : Prop :=
  (1 <= n <= o_next o)%N /\ (o_vers o !! n = Some (with_seq n v) \/ o_vers o !! n = None).

Definition phase_ok (s : store) (u : upload) (p : phase) : Prop :=
  match p with
  | Known (Some (t, f, _)) => exists o, s_objs s !! u_id u = Some o /\ (f <= Z.of_N (o_next o))%Z /\
      (Z.of_nat t <= Z.of_N (o_next o))%Z /\ (0 < f -> 1 <= Z.of_nat t)%Z
  | Created | Again => exists o, s_objs s !! u_id u = Some o
  | Removing n f => exists o, s_objs s !! u_id u = Some o /\ holds (u_ver u) n o /\ (f < Z.of_N (o_next o))%Z
  | Finished n => exists o, s_objs s !! u_id u = Some o /\ holds (u_ver u) n o
  | _ => True
  end.

Definition later (s s' : store) : Prop := forall id o, s_objs s !! id = Some o ->
  exists o', s_objs s' !! id = Some o' /\ (o_next o <= o_next o')%N /\
    forall n, (n <= o_next o)%N -> o_vers o' !! n = o_vers o !! n \/ o_vers o' !! n = None.

Lemma later_refl : forall s, later s s.
Proof. intros s id o Ho. exists o. split_and!; [done|lia|by left]. Qed.

Lemma holds_later : forall v n o o', (o_next o <= o_next o')%N ->
  (forall n, (n <= o_next o)%N -> o_vers o' !! n = o_vers o !! n \/ o_vers o' !! n = None) ->
  holds v n o -> holds v n o'.
Proof.
  intros v n o o' L W [R [H|H]]; (split; [lia|]); destruct (W n) as [->| ->]; try lia; auto.
Qed.

Lemma phase_later : forall s s' u p, later s s' -> phase_ok s u p -> phase_ok s' u p.
Proof.
  intros s s' u p L P.
  destruct p as [|[[[t f] l]|]| | |n f|n|]; cbn in *; try done;
    repeat match goal with H : exists _, _ |- _ => destruct H end;
    repeat match goal with H : _ /\ _ |- _ => destruct H end;
    match goal with H : s_objs s !! _ = Some _ |- _ => destruct (L _ _ H) as (o' & Ho' & Lo & Wo) end;
    exists o'; split_and?; try done; try lia; by eapply holds_later.
Qed.

Definition solid (s : store) : Prop := forall id o, s_objs s !! id = Some o ->
  (o_next o = 0%N \/ is_Some (o_vers o !! o_next o)) /\ (N.of_nat (size (o_vers o)) <= o_next o)%N.

(** What one event of one upload does to the store. *)
Inductive move (u : upload) : store -> phase -> store -> phase -> Prop :=
| mv_same : forall s p p', phase_ok s u p' -> number p' = number p -> (0 <= weight p' <= weight p)%Z ->
    (spent p = true -> spent p' = true) -> move u s p s p'
| mv_new : forall s m, s_objs s !! u_id u = None -> 
    move u s (Known None) (put_obj (u_id u) (mk_obj m 0 ∅) s) Created
| mv_add : forall s p p' o, s_objs s !! u_id u = Some o -> o_vers o !! (o_next o + 1)%N = None ->
    spent p = false -> number p = None -> spent p' = true ->
    number p' = Some (o_next o + 1)%N -> phase_ok (put_obj (u_id u) (added o (u_ver u)) s) u p' ->
    weight p = 0%Z -> (weight p' = 0 \/ weight p' = 1 /\ promised u <= Z.of_N (o_next o))%Z ->
    move u s p (put_obj (u_id u) (added o (u_ver u)) s) p'
| mv_cut : forall s o n f, s_objs s !! u_id u = Some o -> (0 < f < Z.of_N (o_next o))%Z -> holds (u_ver u) n o ->
    move u s (Removing n f) (put_obj (u_id u) (cut_at (Z.to_N f) o) s) (Finished n).

Lemma put_obj_same : forall id o s, s_objs (put_obj id o s) !! id = Some o.
Proof. intros. unfold put_obj. cbn. apply lookup_insert. Qed.

Lemma put_obj_other : forall id id' o s, id <> id' -> s_objs (put_obj id o s) !! id' = s_objs s !! id'.
Proof. intros. unfold put_obj. cbn. by apply lookup_insert_ne. Qed.

Lemma later_put : forall id o o' s, s_objs s !! id = Some o -> (o_next o <= o_next o')%N ->
  (forall n, (n <= o_next o)%N -> o_vers o' !! n = o_vers o !! n \/ o_vers o' !! n = None) ->
  later s (put_obj id o' s).
Proof.
  intros id o o' s Ho L W i x Hx. destruct (decide (id = i)) as [<-|N].
  - rewrite put_obj_same. exists o'. rewrite Ho in Hx. injection Hx as <-. done.
  - rewrite put_obj_other by done. exists x. split_and!; [done|lia|by left].
Qed.

Lemma move_later : forall u s p s' p', move u s p s' p' -> later s s'.
Proof.
  intros u s p s' p' M. destruct M as [s p p'|s m H|s p p' o H Hn|s o n f H Hf Hh].
  - apply later_refl.
  - intros i x Hx. destruct (decide (u_id u = i)) as [<-|N]; [by rewrite H in Hx|].
    rewrite put_obj_other by done. exists x. split_and!; [done|lia|by left].
  - apply (later_put _ o); [done|cbn; lia|]. intros k Hk. left. cbn. rewrite lookup_insert_ne by lia. done.
  - apply (later_put _ o); [done|cbn; lia|]. intros k Hk. cbn. destruct (decide (k = Z.to_N f)) as [->|].
    + right. apply lookup_delete.
    + left. by apply lookup_delete_ne.
Qed.

Lemma move_solid : forall u s p s' p', move u s p s' p' -> solid s -> solid s'.
Proof.
  intros u s p s' p' M S. destruct M as [s p p'|s m H|s p p' o H Hn|s o n f H Hf Hh]; [done|..];
    intros i x Hx; (destruct (decide (u_id u = i)) as [<-|N];
      [rewrite put_obj_same in Hx; injection Hx as <-|rewrite put_obj_other in Hx by done; by apply S in Hx]).
  - cbn. split; [by left|]. rewrite map_size_empty. lia.
  - cbn [added o_next o_vers]. split.
    + right. rewrite lookup_insert. by eexists.
    + rewrite map_size_insert_None by done. apply S in H as [_ H]. lia.
  - cbn [cut_at o_next o_vers]. apply S in H as [A B]. split.
    + destruct A as [A|A]; [by left|]. right. rewrite lookup_delete_ne; [done|]. lia.
    + rewrite map_size_delete. destruct (o_vers o !! Z.to_N f); [pose proof (Nat.le_pred_l (size (o_vers o))); lia|exact B].
Qed.

Lemma move_phase : forall u s p s' p', move u s p s' p' -> phase_ok s' u p'.
Proof.
  intros u s p s' p' M. destruct M as [s p p'|s m H|s p p' o H Hn|s o n f H Hf Hh]; [done|..|done|].
  - cbn. rewrite put_obj_same. by eexists.
  - cbn. rewrite put_obj_same. eexists. split; [done|]. eapply holds_later; [| |exact Hh]; cbn; [lia|].
    intros k Hk. destruct (decide (k = Z.to_N f)) as [->|]; [right; apply lookup_delete|left; by apply lookup_delete_ne].
Qed.

(** ** Counting pending removals *)

Definition load (id : str) (x : upload * phase) : Z :=
  if bool_decide (u_id (fst x) = id) then weight (snd x) else 0%Z.

Fixpoint pending (id : str) (l : list (upload * phase)) : Z :=
  match l with [] => 0%Z | x :: l => (load id x + pending id l)%Z end.

Lemma weight_pos : forall p, (0 <= weight p)%Z.
Proof. intros [| | | |n f| |]; cbn; try lia. destruct (0 <? f)%Z; lia. Qed.

Lemma load_pos : forall id x, (0 <= load id x)%Z.
Proof. intros id x. unfold load. destruct (bool_decide _); [apply weight_pos|lia]. Qed.

Lemma pending_pos : forall id l, (0 <= pending id l)%Z.
Proof. induction l as [|x l IH]; cbn; [lia|]. pose proof (load_pos id x). lia. Qed.

Lemma pending_app : forall id a b, pending id (a ++ b) = (pending id a + pending id b)%Z.
Proof. induction a as [|x a IH]; intros b; cbn; [lia|]. rewrite IH. lia. Qed.

Lemma pending_insert : forall id l i x y, l !! i = Some x ->
  pending id (<[ i := y ]> l) = (pending id l - load id x + load id y)%Z.
Proof.
  induction l as [|z l IH]; intros i x y H; [done|]. destruct i as [|i]; cbn in *.
  - injection H as ->. lia.
  - rewrite (IH _ _ _ H). lia.
Qed.

Lemma pending_none : forall id l, (forall i x, l !! i = Some x -> load id x = 0%Z) -> pending id l = 0%Z.
Proof.
  induction l as [|z l IH]; intros H; [done|]. cbn. rewrite (H 0 z eq_refl), IH; [done|].
  intros i x Hx. by apply (H (S i)).
Qed.

(** ** The invariant *)

Definition uid_of (x : upload * phase) : str := v_uid (u_ver (fst x)).

Definition sound (u : upload) : Prop :=
  u_id u <> [] /\ v_hash (u_ver u) <> [] /\ v_uid (u_ver u) <> [].

Record good (K : N) (st : state) (s : store) : Prop := {
  g_sim : sim (s_db st) s;
  g_inv : inv K (s_db st);
  g_solid : solid s;
  g_free : forall w, (forall i x, s_ups st !! i = Some x -> spent (snd x) = true -> uid_of x <> w) ->
    idx_get w (d_uid (s_db st)) = ∅;
  g_phase : forall i x, s_ups st !! i = Some x -> phase_ok s (fst x) (snd x);
  g_apart : forall i j x y n, s_ups st !! i = Some x -> s_ups st !! j = Some y -> u_id (fst x) = u_id (fst y) ->
    number (snd x) = Some n -> number (snd y) = Some n -> i = j;
  g_source : forall id o n v, s_objs s !! id = Some o -> o_vers o !! n = Some v ->
    exists i x, s_ups st !! i = Some x /\ u_id (fst x) = id /\ number (snd x) = Some n /\ v = with_seq n (u_ver (fst x));
  g_enough : forall id r, (forall i x, s_ups st !! i = Some x -> u_id (fst x) = id -> r <= promised (fst x))%Z ->
    forall o, s_objs s !! id = Some o ->
    (Z.min r (Z.of_N (o_next o)) <= Z.of_nat (size (o_vers o)) - pending id (s_ups st))%Z }.

Lemma too_many_promised : forall u t, too_many u t = true -> (1 <= Z.of_nat t)%Z -> (promised u <= Z.of_nat t)%Z.
Proof.
  intros u t H L. unfold too_many, promised in *. destruct (u_versioning u); cbn in H.
  - rewrite andb_false_r in H. cbn in H. apply Z.leb_le in H. lia.
  - lia.
Qed.

Lemma new_number : forall K st s id o, good K st s -> s_objs s !! id = Some o ->
  o_vers o !! (o_next o + 1)%N = None.
Proof.
  intros K st s id o G Ho. destruct (o_vers o !! (o_next o + 1)%N) eqn:X; [|done].
  assert (1 <= o_next o + 1 <= o_next o)%N; [|lia].
  eapply stored_range; [apply G|apply G|done|by eexists].
Qed.

Definition own_call (u : upload) (p p' : phase) (c : call) : Prop :=
  match c with
  | AddMetadata _ _ | RemoveVersion _ _ => True
  | AddVersion _ v => v = u_ver u /\ spent p = false /\ spent p' = true
  | _ => False
  end.

Lemma advance_facts : forall K st s i u p e d' p', good K st s -> (K + 1 < 2 ^ 63)%N -> sound u ->
  s_ups st !! i = Some (u, p) -> (spent p = false -> uid_exists (s_db st) (v_uid (u_ver u)) = false) ->
  advance e u p (s_db st) = (d', p') ->
  exists s', sim d' s' /\ move u s p s' p' /\ (d' = s_db st \/ exists c, effect (s_db st) c d' /\ own_call u p p' c).
Proof.
  intros K st s i u p e d' p' G HK (Hid & Hh & Hu) Hi Hf E.
  pose proof (g_phase _ _ _ G _ _ Hi) as P. cbn [fst snd] in P.
  pose proof (g_sim _ _ _ G) as S. pose proof (g_inv _ _ _ G) as Iv.
  assert (Stay : forall q, phase_ok s u q -> number q = number p -> (0 <= weight q <= weight p)%Z ->
    (spent p = true -> spent q = true) -> (s_db st, q) = (d', p') ->
    exists s', sim d' s' /\ move u s p s' p' /\ (d' = s_db st \/ exists c, effect (s_db st) c d' /\ own_call u p p' c)).
  { intros q Q1 Q2 Q3 Q4 X. injection X as <- <-. exists s. split; [done|]. split; [by apply mv_same|by left]. }
  assert (Same : (s_db st, p) = (d', p') ->
    exists s', sim d' s' /\ move u s p s' p' /\ (d' = s_db st \/ exists c, effect (s_db st) c d' /\ own_call u p p' c)).
  { apply Stay; [done|done|pose proof (weight_pos p); lia|done]. }
  assert (Reading : forall t f l, get_extra (u_id u) (s_db st) = Some (t, f, l) -> phase_ok s u (Known (Some (t, f, l)))).
  { intros t f l X. pose proof (read_facts K _ _ (u_id u) S Iv ltac:(lia) Hid) as R. rewrite X in R.
    destruct R as (o & Ho & -> & R). cbn. exists o. destruct (g_solid _ _ _ G _ _ Ho) as [_ Z0].
    split_and!; [done| |lia|].
    - destruct R as [[_ ->]|(n & -> & Hn)]; [lia|]. apply (stored_range K _ _ _ _ _ S Iv Ho) in Hn. lia.
    - intros F. destruct R as [[_ ->]|(n & -> & Hn)]; [lia|].
      assert (size (o_vers o) <> 0); [|lia]. intros Z1. apply map_size_empty_iff in Z1. rewrite Z1 in Hn.
      by destruct Hn as [? Hn]. }
  assert (Adding : forall aft o, s_objs s !! u_id u = Some o -> spent p = false -> number p = None ->
    weight p = 0%Z -> add_one u aft (s_db st) = (d', p') ->
    (spent (aft (o_next o + 1)%N) = true /\ number (aft (o_next o + 1)%N) = Some (o_next o + 1)%N /\
     phase_ok (put_obj (u_id u) (added o (u_ver u)) s) u (aft (o_next o + 1)%N) /\
     (weight (aft (o_next o + 1)%N) = 0 \/ weight (aft (o_next o + 1)%N) = 1 /\ promised u <= Z.of_N (o_next o))%Z) ->
    exists s', sim d' s' /\ move u s p s' p' /\ (d' = s_db st \/ exists c, effect (s_db st) c d' /\ own_call u p p' c)).
  { intros aft o Ho Sp Nu We X (A1 & A2 & A3 & A4). unfold add_one in X.
    destruct (add_facts K _ _ (u_id u) o (u_ver u) S Iv HK Ho) as (d1 & D1 & D2 & D3); [by split|by apply Hf|].
    rewrite D1 in X. cbn in X. injection X as <- <-. eexists. split; [exact D2|]. split.
    - apply mv_add; try done. by eapply new_number.
    - right. eexists. split; [exact D3|]. done. }
  assert (Held : forall o, holds (u_ver u) (o_next o + 1) (added o (u_ver u))).
  { intros o. split; [cbn; lia|]. left. cbn. apply lookup_insert. }
  destruct e as [w|j r|j tells|j|j|j|j]; cbn [advance] in E.
  - by apply Same.
  - destruct p as [|x| | | | |]; try (by destruct r; apply Same). destruct r.
    + apply (Stay _) in E; try done. destruct (get_extra (u_id u) (s_db st)) as [[[t f] l]|] eqn:X; [by apply Reading|done].
    + by apply (Stay _) in E.
  - destruct p as [|[x|]| | | | |]; try (by apply Same). unfold insert_meta in E.
    pose proof S as (M & _). rewrite M in E. destruct (s_objs s !! u_id u) as [o|] eqn:Ho; cbn [fmap option_fmap option_map] in E.
    + destruct tells; apply (Stay _) in E; try done; cbn; by eexists.
    + destruct (insert_facts _ _ (u_id u) (u_meta u) S Ho Hid) as (d1 & x & D1 & D2 & D3).
      rewrite D1 in E. cbn in E. injection E as <- <-. eexists. split; [exact D2|]. split; [by apply mv_new|].
      right. eexists. split; [exact D3|]. done.
  - destruct p as [|x| | | | |]; try (by apply Same).
    destruct (get_extra (u_id u) (s_db st)) as [[[t f] l]|] eqn:X; apply (Stay _) in E; try done. by apply Reading.
  - destruct p as [|[[[t f] l]|]| | | | |]; try (by apply Same).
    + destruct P as (o & Ho & F1 & F2 & F3). apply (Adding _ o) in E; try done.
      destruct (too_many u t) eqn:T.
      * split_and!; [done|done| |].
        -- cbn. rewrite put_obj_same. eexists. split; [done|]. split; [apply Held|]. cbn. lia.
        -- cbn. destruct (0 <? f)%Z eqn:F; [|by left]. right. split; [done|]. apply Z.ltb_lt in F.
           pose proof (too_many_promised u t T (F3 F)). lia.
      * split_and!; [done|done| |by left]. cbn. rewrite put_obj_same. eexists. split; [done|]. apply Held.
    + destruct P as (o & Ho). apply (Adding _ o) in E; try done.
      split_and!; [done|done| |by left]. cbn. rewrite put_obj_same. eexists. split; [done|]. apply Held.
  - destruct p as [|x| | |n f| |]; try (by apply Same). destruct P as (o & Ho & H1 & H2).
    unfold remove_one in E. destruct (0 <? f)%Z eqn:F.
    + apply Z.ltb_lt in F. destruct (remove_facts _ _ (u_id u) o (Z.to_N f) S Ho) as (d1 & D1 & D2 & D3).
      rewrite D1 in E. injection E as <- <-. eexists. split; [exact D2|]. split; [by apply mv_cut|].
      right. eexists. split; [exact D3|]. done.
    + apply (Stay _) in E; try done; [cbn; by exists o|cbn; rewrite F; lia].
  - destruct p as [|x| | |n f|n|]; try (by apply (Stay _) in E); try (by apply Same).
    apply (Stay _) in E; try done; [cbn; destruct P as (o & Ho & H1 & H2); by exists o|].
    cbn. destruct (0 <? f)%Z; lia.
Qed.

Lemma move_spent : forall u s p s' p', move u s p s' p' -> spent p = true -> spent p' = true.
Proof. intros u s p s' p' M. destruct M; try done; by auto. Qed.

Lemma inv_more : forall K d, inv K d -> inv (K + 1) d.
Proof. intros K d I id b H. apply I in H as [H1 H2]. split; [lia|done]. Qed.

Lemma phase_number : forall s u p n, phase_ok s u p -> number p = Some n ->
  exists o, s_objs s !! u_id u = Some o /\ holds (u_ver u) n o.
Proof.
  intros s u p n P E. destruct p as [|x| | |m f|m|]; cbn in *; try done; injection E as <-.
  - destruct P as (o & H1 & H2 & _). by exists o.
  - done.
Qed.

Lemma list_insert_cases {A} : forall (l : list A) i j (x y : A), <[ i := y ]> l !! j = Some x ->
  (i = j /\ x = y) \/ (i <> j /\ l !! j = Some x).
Proof.
  intros l i j x y H. destruct (decide (i = j)) as [->|N].
  - left. split; [done|]. assert (j < length l). { apply lookup_lt_Some in H. by rewrite insert_length in H. }
    rewrite list_lookup_insert in H by done. by injection H as <-.
  - right. rewrite list_lookup_insert_ne in H by done. done.
Qed.

Lemma good_arrive : forall K st s u, good K st s -> good (K + 1) (step st (Arrive u)) s.
Proof.
  intros K st s u G. destruct G as [G1 G2 G3 G4 G5 G6 GS G7].
  assert (C : forall i x, (s_ups st ++ [(u, Begun)]) !! i = Some x -> s_ups st !! i = Some x \/ x = (u, Begun)).
  { intros i x H. apply lookup_app_Some in H as [H|[_ H]]; [by left|]. right.
    apply list_lookup_singleton_Some in H as [_ H]. done. }
  split; cbn [step s_db s_ups]; try done.
  - by apply inv_more.
  - intros w H. apply G4. intros i x Hx. apply (H i). by apply lookup_app_l_Some.
  - intros i x H. destruct (C _ _ H) as [H'| ->]; [by eapply G5|done].
  - intros i j x y n Hi Hj. destruct (C _ _ Hi) as [Hi'| ->], (C _ _ Hj) as [Hj'| ->]; try done. by eapply G6.
  - intros id o n v Ho Hv. destruct (GS _ _ _ _ Ho Hv) as (i & x & Hx & R). exists i, x. split; [|done].
    by apply lookup_app_l_Some.
  - intros id r H o Ho. rewrite pending_app. cbn. unfold load. cbn.
    assert ((if bool_decide (u_id u = id) then 0 else 0)%Z = 0%Z) as -> by (by destruct (bool_decide _)).
    rewrite !Z.add_0_r. apply (G7 id r); [|done]. intros i x Hx. apply (H i). by apply lookup_app_l_Some.
Qed.

Lemma good_move : forall K st s i u p e, good K st s -> (K + 1 < 2 ^ 63)%N ->
  (forall j x, s_ups st !! j = Some x -> sound (fst x)) ->
  (forall j k x y, s_ups st !! j = Some x -> s_ups st !! k = Some y -> uid_of x = uid_of y -> j = k) ->
  s_ups st !! i = Some (u, p) ->
  exists s', good (K + 1) (let (d, p') := advance e u p (s_db st) in mk_state d (<[ i := (u, p') ]> (s_ups st))) s'.
Proof.
  intros K st s i u p e G HK Hs Hd Hi. destruct (advance e u p (s_db st)) as [d' p'] eqn:E. pose proof pow63_64 as P64.
  assert (Hf : spent p = false -> uid_exists (s_db st) (v_uid (u_ver u)) = false).
  { intros Sp. unfold uid_exists. rewrite (g_free _ _ _ G); [done|]. intros j x Hx Sx Ex.
    assert (j = i) as -> by (eapply Hd; [exact Hx|exact Hi|done]). rewrite Hi in Hx. injection Hx as <-. cbn in Sx. congruence. }
  destruct (advance_facts K st s i u p e d' p' G HK (Hs _ _ Hi) Hi Hf E) as (s' & S' & M & Q).
  exists s'. pose proof (move_later _ _ _ _ _ M) as L. destruct G as [G1 G2 G3 G4 G5 G6 GS G7].
  split; cbn [s_db s_ups].
  - done.
  - destruct Q as [->|(c & Ef & O)]; [by apply inv_more|]. eapply (inv_effect 0); [done|exact Ef| |lia|lia].
    intros id v ->. done.
  - by eapply move_solid.
  - intros w W.
    assert (F : idx_get w (d_uid (s_db st)) = ∅).
    { apply G4. intros j x Hx Sx. destruct (decide (i = j)) as [<-|Nj].
      - rewrite Hi in Hx. injection Hx as <-. apply (W i (u, p')); [apply list_lookup_insert; by eapply lookup_lt_Some|].
        cbn in *. by eapply move_spent.
      - apply (W j x); [|done]. by rewrite list_lookup_insert_ne. }
    destruct Q as [->|(c & Ef & O)]; [done|]. eapply fresh_effect; [exact F| |exact Ef].
    intros [(id & v & -> & Hv)|(id & v & -> & Hv)]; [|done]. destruct O as (-> & _ & Sp').
    apply (W i (u, p')); [apply list_lookup_insert; by eapply lookup_lt_Some|done|done].
  - intros j x Hx. apply list_insert_cases in Hx as [[<- ->]|[_ Hx]].
    + cbn. by eapply move_phase.
    + eapply phase_later; [exact L|by eapply G5].
  - assert (Other : forall j x n, i <> j -> s_ups st !! j = Some x -> u_id u = u_id (fst x) -> number p' = Some n ->
      number (snd x) = Some n -> i = j).
    { intros j x n Nj Hx Hid Hn Hxn. destruct M as [s p p' _ Hnum|s m H0|s p p' o Ho _ _ _ _ Hnum|s o m f Ho].
      - eapply (G6 i j (u, p) x n); cbn; try done. by rewrite <- Hnum.
      - done.
      - rewrite Hnum in Hn. injection Hn as <-. destruct (phase_number s (fst x) (snd x) _ (G5 _ _ Hx) Hxn) as (o' & Ho' & B & _).
        rewrite <- Hid, Ho in Ho'. injection Ho' as <-. lia.
      - cbn in Hn. eapply (G6 i j (u, Removing m f) x n); done. }
    intros j k x y n Hx Hy Hid Hn Hn'.
    apply list_insert_cases in Hx as [[Ej ->]|[Nj Hx]]; apply list_insert_cases in Hy as [[Ek ->]|[Nk Hy]].
    + congruence.
    + subst j. by eapply Other.
    + subst k. symmetry. eapply Other; [done|exact Hx|done|done|done].
    + by eapply G6.
  - intros id o n v Ho Hv.
    assert (Old : forall o n v, s_objs s !! id = Some o -> o_vers o !! n = Some v ->
      (number p = None \/ number p' = number p) ->
      exists j x, <[ i := (u, p') ]> (s_ups st) !! j = Some x /\ u_id (fst x) = id /\ number (snd x) = Some n /\
        v = with_seq n (u_ver (fst x))).
    { intros o0 n0 v0 Ho0 Hv0 Hp. destruct (GS _ _ _ _ Ho0 Hv0) as (j & x & Hx & Hxi & Hxn & Hxv).
      destruct (decide (i = j)) as [<-|Nj].
      - rewrite Hi in Hx. injection Hx as <-. cbn in *. destruct Hp as [Hp|Hp]; [by rewrite Hp in Hxn|].
        exists i, (u, p'). cbn. rewrite Hp. split_and!; try done. apply list_lookup_insert. by eapply lookup_lt_Some.
      - exists j, x. split_and!; try done. by rewrite list_lookup_insert_ne. }
    destruct (decide (u_id u = id)) as [<-|Nid].
    + destruct M as [s p p' _ Hnum|s m H0|s p p' o0 Ho0 Hnone _ Hp _ Hnum|s o0 m f Ho0 Hf0].
      * apply (Old o); [done|done|by right].
      * rewrite put_obj_same in Ho. injection Ho as <-. done.
      * rewrite put_obj_same in Ho. injection Ho as <-. cbn [added o_vers] in Hv.
        destruct (decide (n = (o_next o0 + 1)%N)) as [->|Nn].
        -- rewrite lookup_insert in Hv. injection Hv as <-. exists i, (u, p'). cbn. split_and!; try done.
           apply list_lookup_insert. by eapply lookup_lt_Some.
        -- rewrite lookup_insert_ne in Hv by done. apply (Old o0); [done|done|by left].
      * rewrite put_obj_same in Ho. injection Ho as <-. cbn [cut_at o_vers] in Hv.
        apply lookup_delete_Some in Hv as [_ Hv]. apply (Old o0); [done|done|by right].
    + destruct M as [s p p' _ Hnum|s m H0|s p p' o0 Ho0 Hnone _ Hp|s o0 m f Ho0]; try rewrite put_obj_other in Ho by done;
        (apply (Old o); [done|done|]); [by right|by left|by left|by right].
  - intros id r H o Ho.
    assert (H' : forall j x, s_ups st !! j = Some x -> u_id (fst x) = id -> (r <= promised (fst x))%Z).
    { intros j x Hx Hxi. destruct (decide (i = j)) as [<-|Nj].
      - rewrite Hi in Hx. injection Hx as <-. apply (H i (u, p')); [|done]. apply list_lookup_insert. by eapply lookup_lt_Some.
      - apply (H j x); [|done]. by rewrite list_lookup_insert_ne. }
    pose proof (G7 id r H') as G8. rewrite (pending_insert _ _ _ _ _ Hi). unfold load. cbn [fst snd].
    destruct (decide (u_id u = id)) as [<-|Nid].
    + rewrite !bool_decide_true by done. assert (Hr : (r <= promised u)%Z) by (by apply (H' i (u, p))).
      destruct M as [s p p' _ _ Hw|s m H0|s p p' o0 Ho0 Hnone _ _ _ _ _ Hw Hw'|s o0 m f Ho0 Hf0].
      * specialize (G8 o Ho). lia.
      * rewrite put_obj_same in Ho. injection Ho as <-. cbn. rewrite map_size_empty.
        assert (pending (u_id u) (s_ups st) = 0%Z) as ->; [|lia].
        apply pending_none. intros j [u' q] Hx. unfold load. cbn. destruct (decide (u_id u' = u_id u)) as [Eu|Eu];
          [|by rewrite bool_decide_false].
        rewrite bool_decide_true by done. pose proof (G5 _ _ Hx) as P. cbn in P. destruct q; cbn in *; try done.
        destruct P as (o' & Ho' & _). rewrite Eu, H0 in Ho'. done.
      * rewrite put_obj_same in Ho. injection Ho as <-. specialize (G8 o0 Ho0). cbn [added o_next o_vers].
        rewrite map_size_insert_None by done. lia.
      * rewrite put_obj_same in Ho. injection Ho as <-. specialize (G8 o0 Ho0). cbn [cut_at o_next o_vers weight].
        destruct (Z.ltb_spec 0 f) as [_|]; [|lia].
        assert (size (o_vers o0) <= S (size (delete (Z.to_N f) (o_vers o0))))%nat; [|lia].
        destruct (o_vers o0 !! Z.to_N f) as [v|] eqn:X.
        -- rewrite <- (insert_delete _ _ _ X) at 1. rewrite map_size_insert_None; [lia|]. apply lookup_delete.
        -- rewrite delete_notin by done. lia.
    + rewrite !bool_decide_false by done. rewrite Z.sub_0_r, Z.add_0_r. apply G8.
      destruct M as [s p p'|s m H0|s p p' o0 Ho0|s o0 m f Ho0]; [done|..]; by rewrite put_obj_other in Ho.
Qed.

(** ** Any interleaving *)

Lemma step_own : forall st i u p e, s_ups st !! i = Some (u, p) -> owner e = Some i ->
  step st e = let (d, p') := advance e u p (s_db st) in mk_state d (<[ i := (u, p') ]> (s_ups st)).
Proof.
  intros st i u p e H O. destruct e; cbn in O; try done; injection O as ->; unfold step; cbn [owner]; by rewrite H.
Qed.

Lemma step_none : forall st i e, s_ups st !! i = None -> owner e = Some i -> step st e = st.
Proof.
  intros st i e H O. destruct e; cbn in O; try done; injection O as ->; unfold step; cbn [owner]; by rewrite H.
Qed.

Lemma arrived_app : forall a b, arrived (a ++ b) = arrived a ++ arrived b.
Proof. intros a b. unfold arrived. apply omap_app. Qed.

Lemma after_snoc : forall es e, after (es ++ [e]) = step (after es) e.
Proof. intros es e. unfold after, run. by rewrite fold_left_app. Qed.

Lemma execution_app : forall a b, execution (a ++ b) -> execution a.
Proof.
  intros a b (E1 & E2 & E3). unfold execution. rewrite arrived_app in E1, E2. rewrite map_app in E2.
  apply List.Forall_app in E1 as [E1 _]. apply NoDup_app in E2 as (E2 & _ & _).
  rewrite app_length in E3. split_and!; [done|done|lia].
Qed.

Lemma step_ups : forall st e, map fst (s_ups (step st e)) = map fst (s_ups st) ++ arrived [e].
Proof.
  intros st e. destruct (owner e) as [i|] eqn:O.
  - assert (arrived [e] = []) as -> by (by destruct e). rewrite app_nil_r.
    destruct (s_ups st !! i) as [[u p]|] eqn:H.
    + rewrite (step_own _ _ _ _ _ H O). destruct (advance e u p (s_db st)) as [d p']. cbn [s_ups].
      change (map fst (<[ i := (u, p') ]> (s_ups st))) with (fst <$> <[ i := (u, p') ]> (s_ups st)).
      rewrite list_fmap_insert. cbn. apply list_insert_id. rewrite list_lookup_fmap, H. done.
    + by rewrite (step_none _ _ _ H O).
  - destruct e; try done. cbn. by rewrite map_app.
Qed.

Lemma good_run : forall es, execution es ->
  map fst (s_ups (after es)) = arrived es /\ exists s, good (N.of_nat (length es)) (after es) s.
Proof.
  induction es as [|e es IH] using rev_ind; intros X.
  - split; [done|]. exists store_empty. split; cbn; done.
  - destruct (IH (execution_app _ _ X)) as [U [s G]]. rewrite after_snoc.
    split; [rewrite step_ups, U; by rewrite arrived_app|].
    rewrite app_length. cbn [length]. rewrite Nat2N.inj_add. cbn [N.of_nat Pos.of_succ_nat].
    destruct (owner e) as [i|] eqn:O.
    2:{ destruct e; try done. exists s. by apply good_arrive. }
    destruct (s_ups (after es) !! i) as [[u p]|] eqn:H.
    2:{ rewrite (step_none _ _ _ H O). exists s. destruct G. split; try done. by apply inv_more. }
    rewrite (step_own _ _ _ _ _ H O). destruct X as (X1 & X2 & X3).
    rewrite arrived_app in X1, X2. rewrite map_app in X2. apply List.Forall_app in X1 as [X1 _].
    apply NoDup_app in X2 as (X2 & _ & _). rewrite app_length in X3. cbn [length] in X3.
    assert (Hin : forall j x, s_ups (after es) !! j = Some x -> arrived es !! j = Some (fst x)).
    { intros j x Hx. rewrite <- U. change (map fst (s_ups (after es))) with (fst <$> s_ups (after es)).
      by rewrite list_lookup_fmap, Hx. }
    eapply good_move; [exact G|lia| | |exact H].
    + intros j x Hx. apply Hin in Hx. rewrite List.Forall_forall in X1. apply X1.
      apply elem_of_list_In. by eapply elem_of_list_lookup_2.
    + intros j k x y Hx Hy Ex. apply Hin in Hx, Hy.
      eapply (NoDup_lookup _ j k (uid_of x) X2);
        [change (map (fun u => v_uid (u_ver u)) (arrived es)) with ((fun u => v_uid (u_ver u)) <$> arrived es);
         rewrite list_lookup_fmap, Hx; done|].
      change (map (fun u => v_uid (u_ver u)) (arrived es)) with ((fun u => v_uid (u_ver u)) <$> arrived es).
      rewrite list_lookup_fmap, Hy, Ex. done.
Qed.

Lemma given_phase : forall st i u n, given st i u n <-> exists p, s_ups st !! i = Some (u, p) /\ number p = Some n.
Proof.
  intros st i u n. split.
  - intros [H|[f H]]; eexists; split; done.
  - intros (p & H & E). destruct p; cbn in E; try done; injection E as ->; [right; by eexists|by left].
Qed.

Lemma given_obj : forall K st s i u n, good K st s -> given st i u n ->
  exists o, s_objs s !! u_id u = Some o /\ holds (u_ver u) n o /\ is_Some (o_vers o !! o_next o).
Proof.
  intros K st s i u n G H. apply given_phase in H as (p & H & E).
  destruct (phase_number s u p n (g_phase _ _ _ G _ _ H) E) as (o & Ho & Hh).
  exists o. split_and!; [done|done|]. destruct (g_solid _ _ _ G _ _ Ho) as [[Z0|Z0] _]; [|done].
  destruct Hh as [B _]. lia.
Qed.

Lemma stored_source : forall es id n v, execution es -> get_ver id n (s_db (after es)) = Some v ->
  exists i u, given (after es) i u n /\ u_id u = id /\ v = with_seq n (u_ver u).
Proof.
  intros es id n v X H. destruct (good_run es X) as [_ [s G]].
  rewrite (sim_get_ver _ s _ _ (g_sim _ _ _ G)) in H. destruct (s_objs s !! id) as [o|] eqn:Ho; [|done]. cbn in H.
  destruct (g_source _ _ _ G _ _ _ _ Ho H) as (i & [u p] & Hi & Hid & Hn & Hv). exists i, u.
  split_and!; [|done|done]. apply given_phase. by exists p.
Qed.

Lemma newest_kept : forall es i u n, execution es -> given (after es) i u n ->
  exists k, (n <= k)%N /\ has_version (s_db (after es)) (u_id u) k.
Proof.
  intros es i u n X H. destruct (good_run es X) as [_ [s G]].
  destruct (given_obj _ _ _ _ _ _ G H) as (o & Ho & [B _] & T). exists (o_next o). split; [lia|].
  by apply (sim_has _ s (u_id u) o); [apply G|..].
Qed.

Lemma own_content : forall es i u n, execution es -> given (after es) i u n ->
  get_ver (u_id u) n (s_db (after es)) = Some (with_seq n (u_ver u)) \/
  get_ver (u_id u) n (s_db (after es)) = None /\
  exists k, (n < k)%N /\ has_version (s_db (after es)) (u_id u) k.
Proof.
  intros es i u n X H. destruct (good_run es X) as [_ [s G]].
  destruct (given_obj _ _ _ _ _ _ G H) as (o & Ho & [B C] & T).
  rewrite (sim_get_ver _ s _ _ (g_sim _ _ _ G)), Ho. cbn. destruct C as [C|C]; [by left|right].
  split; [done|]. exists (o_next o). split.
  - destruct (decide (n = o_next o)) as [->|]; [|lia]. rewrite C in T. by destruct T.
  - by apply (sim_has _ s (u_id u) o); [apply G|..].
Qed.

Lemma numbers_apart : forall es i j u w n, execution es -> given (after es) i u n -> given (after es) j w n ->
  u_id u = u_id w -> i = j.
Proof.
  intros es i j u w n X H1 H2 E. destruct (good_run es X) as [_ [s G]].
  apply given_phase in H1 as (p & H1 & E1). apply given_phase in H2 as (q & H2 & E2).
  by eapply (g_apart _ _ _ G i j (u, p) (w, q) n).
Qed.

Lemma enough_kept : forall es r i u n, execution es ->
  Forall (fun w => u_id w = u_id u -> (r <= promised w)%Z) (arrived es) -> given (after es) i u n ->
  exists l, NoDup l /\ Forall (has_version (s_db (after es)) (u_id u)) l /\
            (Z.min r (Z.of_N n) <= Z.of_nat (length l))%Z.
Proof.
  intros es r i u n X F H. destruct (good_run es X) as [U [s G]].
  destruct (given_obj _ _ _ _ _ _ G H) as (o & Ho & [B _] & T).
  exists (map fst (map_to_list (o_vers o))). split_and!.
  - apply NoDup_fst_map_to_list.
  - apply List.Forall_forall. intros k Hk. apply elem_of_list_In in Hk.
    apply elem_of_list_fmap in Hk as ([k' v] & -> & Hk). apply elem_of_map_to_list in Hk.
    apply (sim_has _ s (u_id u) o); [apply G|done|by eexists].
  - rewrite map_length. change (length (map_to_list (o_vers o))) with (size (o_vers o)).
    assert (E : (Z.min r (Z.of_N (o_next o)) <= Z.of_nat (size (o_vers o)) - pending (u_id u) (s_ups (after es)))%Z).
    { apply (g_enough _ _ _ G (u_id u) r); [|done]. intros j x Hx Ex. rewrite List.Forall_forall in F. apply F; [|done].
      rewrite <- U. apply elem_of_list_In. apply elem_of_list_fmap. exists x. split; [done|]. by eapply elem_of_list_lookup_2. }
    pose proof (pending_pos (u_id u) (s_ups (after es))). lia.
Qed.

(** ** One upload alone *)

Lemma step_at : forall d l u p r e, owner e = Some (length l) ->
  step (mk_state d (l ++ (u, p) :: r)) e =
  let (d', p') := advance e u p d in mk_state d' (l ++ (u, p') :: r).
Proof.
  intros d l u p r e O. rewrite (step_own _ (length l) u p e).
  - cbn [s_db s_ups]. destruct (advance e u p d) as [d' p'].
    rewrite <- (Nat.add_0_r (length l)) at 1. by rewrite insert_app_r.
  - cbn. by rewrite list_lookup_middle.
  - done.
Qed.

Lemma alone_put : forall es u, execution (es ++ Arrive u :: whole (length (s_ups (after es)))) ->
  s_db (run (after es) (Arrive u :: whole (length (s_ups (after es))))) =
  put (u_versioning u) (u_remains u) (u_id u) (u_meta u) (s_db (after es)) (u_ver u) /\
  exists n, given (run (after es) (Arrive u :: whole (length (s_ups (after es))))) (length (s_ups (after es))) u n.
Proof.
  intros es u X. pose proof (good_run es (execution_app _ _ X)) as [U [s G]].
  destruct X as (X1 & X2 & X3). rewrite arrived_app in X1, X2. rewrite map_app in X2.
  apply List.Forall_app in X1 as [_ X1]. apply List.Forall_inv in X1 as (Hid & Hh & Hu).
  apply NoDup_app in X2 as (_ & X2 & _). rewrite app_length in X3. cbn [length whole] in X3.
  assert (Hfree : idx_get (v_uid (u_ver u)) (d_uid (s_db (after es))) = ∅).
  { apply (g_free _ _ _ G). intros i x Hx _ Ex. apply (X2 (uid_of x)).
    - apply elem_of_list_fmap. exists (fst x). split; [done|]. rewrite <- U. apply elem_of_list_fmap.
      exists x. split; [done|]. by eapply elem_of_list_lookup_2.
    - cbn. rewrite Ex. apply elem_of_list_singleton. done. }
  pose proof (g_sim _ _ _ G) as S. pose proof (g_inv _ _ _ G) as Iv. pose proof pow63_64 as P64.
  pose proof (read_facts _ _ _ (u_id u) S Iv ltac:(lia) Hid) as R.
  assert (Hbelow : forall o, s_objs s !! u_id u = Some o -> (o_next o <= N.of_nat (length es))%N) by (intros; by eapply next_le).
  clear G U. destruct (after es) as [d l]. cbn [s_db s_ups] in *.
  unfold whole, run. cbn [fold_left]. change (step (mk_state d l) (Arrive u)) with (mk_state d (l ++ (u, Begun) :: [])).
  unfold put, put_read, put_calls.
  rewrite (step_at d l u Begun []) by done. cbn [advance].
  destruct (get_extra (u_id u) d) as [[[t f] z]|].
  - destruct R as (o & Ho & -> & R).
    rewrite (step_at d l u _ []) by done. cbn [advance].
    rewrite (step_at d l u _ []) by done. cbn [advance]. unfold add_one.
    destruct (add_facts _ d s (u_id u) o (u_ver u) S Iv) as (d1 & D1 & D2 & D3); [lia|done|by split|by unfold uid_exists; rewrite Hfree|].
    rewrite D1.
    replace (match RStatus 200 (Some (o_next o + 1)%N) with RStatus 200 (Some n) => (d1, if too_many u (size (o_vers o)) then Removing n f else Finished n)
      | _ => (d1, Broken) end) with (d1, if too_many u (size (o_vers o)) then Removing (o_next o + 1) f else Finished (o_next o + 1)) by done.
    rewrite (step_at d1 l u _ []) by done.
    fold (too_many u (size (o_vers o))). destruct (too_many u (size (o_vers o))); cbn [advance s_db].
    + unfold remove_one. destruct (0 <? f)%Z.
      * split.
        -- unfold run_calls. cbn [map hrun fold_left hstep]. rewrite D1. done.
        -- exists (o_next o + 1)%N. left. cbn. by rewrite list_lookup_middle.
      * split.
        -- unfold run_calls. cbn [map hrun fold_left hstep]. rewrite D1. done.
        -- exists (o_next o + 1)%N. left. cbn. by rewrite list_lookup_middle.
    + split.
      * unfold run_calls. cbn [map hrun fold_left hstep]. rewrite D1. done.
      * exists (o_next o + 1)%N. left. cbn. by rewrite list_lookup_middle.
  - rewrite (step_at d l u _ []) by done. cbn [advance]. unfold insert_meta.
    pose proof S as (M & _). rewrite M, R. cbn [fmap option_fmap option_map].
    destruct (insert_facts d s (u_id u) (u_meta u) S R Hid) as (d1 & x & D1 & D2 & D3). rewrite D1.
    replace (match RStatus 200 x with RStatus 200 _ => (d1, Created) | _ => (d1, Broken) end) with (d1, Created) by done.
    rewrite (step_at d1 l u _ []) by done. cbn [advance]. unfold add_one.
    assert (I1 : inv (N.of_nat (length es) + 1) d1) by (eapply (inv_effect 0); [exact Iv|exact D3|done|lia|lia]).
    assert (F1 : idx_get (v_uid (u_ver u)) (d_uid d1) = ∅).
    { eapply fresh_effect; [exact Hfree| |exact D3]. intros [(i & v & E & _)|(i & v & E & _)]; done. }
    destruct (add_facts _ d1 _ (u_id u) (mk_obj (u_meta u) 0 ∅) (u_ver u) D2 I1) as (d2 & D4 & D5 & D6);
      [lia|by rewrite put_obj_same|by split|by unfold uid_exists; rewrite F1|].
    rewrite D4. cbn [o_next].
    replace (match RStatus 200 (Some (0 + 1)%N) with RStatus 200 (Some n) => (d2, Finished n) | _ => (d2, Broken) end)
      with (d2, Finished (0 + 1)) by done.
    rewrite (step_at d2 l u _ []) by done. cbn [advance s_db]. split.
    + unfold run_calls. cbn [map hrun fold_left hstep]. rewrite D1. cbn [fst]. rewrite D4. done.
    + exists (0 + 1)%N. left. cbn [s_ups]. by rewrite list_lookup_middle.
Qed.

(** ** Pairs of uploads leave one more version each *)

Definition round (u w : upload) (i : nat) : list event :=
  [Arrive u; Arrive w; Read i true; Read (S i) true; Churn_Model.Add i; Churn_Model.Add (S i); Remove i; Remove (S i)].

Lemma step_next : forall d l x u p r e, owner e = Some (S (length l)) ->
  step (mk_state d (l ++ x :: (u, p) :: r)) e =
  let (d', p') := advance e u p d in mk_state d' (l ++ x :: (u, p') :: r).
Proof.
  intros d l x u p r e O. pose proof (step_at d (l ++ [x]) u p r e) as H. rewrite app_length in H. cbn [length] in H.
  rewrite Nat.add_1_r, <- app_assoc in H. cbn [app] in H. rewrite (H O). destruct (advance e u p d) as [d' p'].
  by rewrite <- app_assoc.
Qed.

Lemma add_one_eq : forall u aft d d' n,
  dispatch (command true (AddVersion (u_id u) (u_ver u))) d = (d', RStatus 200 (Some n)) -> add_one u aft d = (d', aft n).
Proof. intros u aft d d' n H. unfold add_one. by rewrite H. Qed.

Lemma round_grows : forall K d s l u w o, sim d s -> inv K d -> (K + 3 < 2 ^ 63)%N ->
  sound u -> sound w -> u_id w = u_id u -> u_versioning u = false -> u_versioning w = false ->
  idx_get (v_uid (u_ver u)) (d_uid d) = ∅ -> idx_get (v_uid (u_ver w)) (d_uid d) = ∅ ->
  v_uid (u_ver u) <> v_uid (u_ver w) ->
  s_objs s !! u_id u = Some o -> o_vers o <> ∅ ->
  exists d' s' o' a b, run (mk_state d l) (round u w (length l)) = mk_state d' (l ++ [(u, Finished a); (w, Finished b)]) /\
    sim d' s' /\ s_objs s' !! u_id u = Some o' /\ size (o_vers o') = S (size (o_vers o)).
Proof.
  intros K d s l u w o S Iv HK (Hid & Hh & Hu) (_ & Hh' & Hu') Eid Vu Vw Fu Fw Nuw Ho Hne. pose proof pow63_64 as P64.
  pose proof (read_facts K d s (u_id u) S Iv ltac:(lia) Hid) as R.
  destruct (get_extra (u_id u) d) as [[[t f] z]|] eqn:X; [|by rewrite Ho in R].
  destruct R as (o' & Ho' & -> & R). rewrite Ho in Ho'. injection Ho' as <-.
  destruct R as [[R _]|(n & -> & Hn)]; [done|].
  assert (Hpos : size (o_vers o) <> 0) by (by intros Z1; apply map_size_empty_iff in Z1).
  assert (Tu : too_many u (size (o_vers o)) = true).
  { unfold too_many. rewrite Vu. destruct (Z.ltb_spec 0 (Z.of_nat (size (o_vers o)))); [done|lia]. }
  assert (Tw : too_many w (size (o_vers o)) = true).
  { unfold too_many. rewrite Vw. destruct (Z.ltb_spec 0 (Z.of_nat (size (o_vers o)))); [done|lia]. }
  pose proof (stored_range K d s _ o n S Iv Ho Hn) as Rn.
  assert (Nx : forall (K : N) d s o, sim d s -> inv K d -> s_objs s !! u_id u = Some o -> o_vers o !! (o_next o + 1)%N = None).
  { intros K' d' s' o' S' I' H'. destruct (o_vers o' !! (o_next o' + 1)%N) eqn:Y; [|done].
    assert (1 <= o_next o' + 1 <= o_next o')%N; [|lia]. eapply stored_range; [exact S'|exact I'|exact H'|by eexists]. }
  unfold run, round. cbn [fold_left].
  change (step (step (mk_state d l) (Arrive u)) (Arrive w)) with (mk_state d ((l ++ [(u, Begun)]) ++ [(w, Begun)])).
  rewrite <- app_assoc. cbn [app].
  rewrite step_at by done. cbn [advance]. rewrite X.
  rewrite step_next by done. cbn [advance]. rewrite Eid, X.
  rewrite step_at by done. cbn [advance].
  destruct (add_facts K d s (u_id u) o (u_ver u) S Iv) as (d1 & D1 & D2 & D3);
    [lia|done|by split|by unfold uid_exists; rewrite Fu|].
  rewrite (add_one_eq u _ d d1 _ D1). rewrite Tu.
  rewrite step_next by done. cbn [advance].
  assert (I1 : inv (K + 1) d1) by (eapply (inv_effect 0); [exact Iv|exact D3|done|lia|lia]).
  assert (Fw1 : idx_get (v_uid (u_ver w)) (d_uid d1) = ∅).
  { eapply fresh_effect; [exact Fw| |exact D3]. intros [(i & v & E & Ev)|(i & v & E & _)]; [|done]. injection E as <- <-. done. }
  set (o1 := added o (u_ver u)) in *.
  assert (Ho1 : s_objs (put_obj (u_id u) o1 s) !! u_id w = Some o1) by (rewrite Eid; apply put_obj_same).
  destruct (add_facts _ d1 _ (u_id w) o1 (u_ver w) D2 I1) as (d2 & D4 & D5 & D6);
    [lia|done|by split|by unfold uid_exists; rewrite Fw1|].
  rewrite (add_one_eq w _ d1 d2 _ D4). rewrite Tw.
  assert (I2 : inv (K + 1 + 1) d2) by (eapply (inv_effect 0); [exact I1|exact D6|done|lia|lia]).
  rewrite step_at by done. cbn [advance]. unfold remove_one at 1.
  destruct (Z.ltb_spec 0 (Z.of_N n)) as [_|]; [|lia]. rewrite N2Z.id.
  set (o2 := added o1 (u_ver w)) in *.
  assert (Ho2 : s_objs (put_obj (u_id w) o2 (put_obj (u_id u) o1 s)) !! u_id u = Some o2) by (rewrite Eid; apply put_obj_same).
  destruct (remove_facts d2 _ (u_id u) o2 n D5 Ho2) as (d3 & D7 & D8 & D9). rewrite D7.
  rewrite step_next by done. cbn [advance]. unfold remove_one.
  destruct (Z.ltb_spec 0 (Z.of_N n)) as [_|]; [|lia]. rewrite N2Z.id.
  set (o3 := cut_at n o2) in *. rewrite Eid in *.
  destruct (remove_facts d3 _ (u_id u) o3 n D8 (put_obj_same _ _ _)) as (d4 & D10 & D11 & D12). rewrite D10.
  exists d4. eexists. exists (cut_at n o3). eexists. eexists. split; [reflexivity|]. split; [exact D11|].
  split; [apply put_obj_same|]. unfold o3. cbn [cut_at o_vers]. rewrite delete_idemp.
  assert (Hn2 : is_Some (o_vers o2 !! n)).
  { unfold o2, o1. cbn [added o_vers o_next]. rewrite !lookup_insert_ne by lia. done. }
  rewrite map_size_delete. destruct Hn2 as [v2 ->].
  unfold o2. cbn [added o_vers].
  rewrite map_size_insert_None by (eapply (Nx (K + 1)%N d1); [exact D2|exact I1|apply put_obj_same]).
  unfold o1. cbn [added o_vers]. rewrite map_size_insert_None by (by eapply (Nx K d)). cbn. done.
Qed.

Lemma busy_step : forall st e, busy (step st e) <= busy st + length (arrived [e]).
Proof.
  intros st e. destruct (owner e) as [i|] eqn:O.
  - destruct (s_ups st !! i) as [[u p]|] eqn:H.
    2:{ rewrite (step_none _ _ _ H O). lia. }
    rewrite (step_own _ _ _ _ _ H O).
    destruct (advance e u p (s_db st)) as [d p'] eqn:A. unfold busy. cbn [s_ups].
    assert (W : under_way p = false -> under_way p' = false).
    { intros W. destruct p; try done; destruct e as [|? []| | | | |]; cbn in A; by injection A as _ <-. }
    enough (length (List.filter (fun x => under_way (snd x)) (<[ i := (u, p') ]> (s_ups st))) <=
            length (List.filter (fun x => under_way (snd x)) (s_ups st))) by lia.
    clear -W H. revert i H. generalize (s_ups st). induction l as [|x l IH]; intros i H; [done|].
    destruct i as [|i]; cbn in *.
    + injection H as ->. cbn. destruct (under_way p); [destruct (under_way p'); cbn; lia|by rewrite (W eq_refl)].
    + specialize (IH i H). destruct (under_way (snd x)); [exact (le_n_S _ _ IH)|exact IH].
  - destruct e; try done. unfold busy. cbn. rewrite List.filter_app, app_length. cbn. lia.
Qed.

Lemma busy_run : forall es st, busy (run st es) <= busy st + length (arrived es).
Proof.
  induction es as [|e es IH]; intros st; [cbn; lia|]. change (run st (e :: es)) with (run (step st e) es).
  specialize (IH (step st e)). pose proof (busy_step st e).
  change (e :: es) with ([e] ++ es). rewrite arrived_app, app_length. lia.
Qed.

Definition pair_upload (j : nat) : upload :=
  mk_upload (s2l "b/o"%string) (mk_metadata (s2l "o"%string) (s2l "b"%string) 1 1)
    (mk_version false 0 1 0 5 5 1 0 (s2l "h"%string) (replicate (S j) "u"%char) []) false 1.

Fixpoint pairs (k : nat) : list event :=
  match k with
  | 0 => Arrive (pair_upload 0) :: whole 0
  | S k => pairs k ++ round (pair_upload (2 * k + 1)) (pair_upload (2 * k + 2)) (2 * k + 1)
  end.

Lemma pairs_arrived : forall k, arrived (pairs k) = map pair_upload (seq 0 (2 * k + 1)).
Proof.
  induction k as [|k IH]; [done|]. cbn [pairs]. rewrite arrived_app, IH.
  replace (2 * S k + 1) with ((2 * k + 1) + 2) by lia. rewrite (seq_app (2 * k + 1) 2), Nat.add_0_l, map_app. f_equal.
  assert (seq (2 * k + 1) 2 = [2 * k + 1; 2 * k + 2]) as ->; [|done].
  cbn [seq]. repeat f_equal; lia.
Qed.

Lemma pairs_length : forall k, length (pairs k) = 5 + 8 * k.
Proof. induction k as [|k IH]; [done|]. cbn [pairs]. rewrite app_length, IH. cbn. lia. Qed.

Lemma pairs_execution : forall k, (N.of_nat k < 2 ^ 59)%N -> execution (pairs k).
Proof.
  intros k Hk. unfold execution. rewrite pairs_arrived, pairs_length. split_and!.
  - apply List.Forall_forall. intros u Hu. apply in_map_iff in Hu as (j & <- & _). done.
  - rewrite map_map. apply (NoDup_fmap_2_strong (fun j => v_uid (u_ver (pair_upload j)))); [|apply NoDup_seq].
    intros i j _ _ E. cbn in E. apply (f_equal length) in E. cbn in E. rewrite !replicate_length in E. lia.
  - change (2 ^ 63)%N with (16 * 2 ^ 59)%N. lia.
Qed.

Lemma pairs_state : forall k, (N.of_nat k < 2 ^ 59)%N ->
  Forall (fun x => exists n, snd x = Finished n) (s_ups (after (pairs k))) /\
  exists s o, sim (s_db (after (pairs k))) s /\ s_objs s !! s2l "b/o"%string = Some o /\ size (o_vers o) = S k.
Proof.
  induction k as [|k IH]; intros Hk.
  - split; [vm_compute; repeat constructor; by eexists|].
    destruct (good_run (pairs 0) (pairs_execution 0 Hk)) as [_ [s G]].
    pose proof (read_facts _ _ _ (s2l "b/o"%string) (g_sim _ _ _ G) (g_inv _ _ _ G) ltac:(done) ltac:(done)) as R.
    assert (X : get_extra (s2l "b/o"%string) (s_db (after (pairs 0))) = Some (1, 1%Z, 1%Z)) by (by vm_compute).
    rewrite X in R. destruct R as (o & Ho & E & _). exists s, o. split_and!; [apply G|done|done].
  - destruct IH as [F (s & o & Sm & Ho & Hsz)]; [lia|].
    pose proof (pairs_execution k ltac:(lia)) as X.
    destruct (good_run (pairs k) X) as [U [s0 G]]. pose proof (pairs_length k) as Ln.
    pose proof (g_inv _ _ _ G) as Iv.
    assert (Free : forall j, 2 * k + 1 <= j -> idx_get (v_uid (u_ver (pair_upload j))) (d_uid (s_db (after (pairs k)))) = ∅).
    { intros j Hj. apply (g_free _ _ _ G). intros i x Hx _ E.
      assert (In (fst x) (arrived (pairs k))) as Hin.
      { rewrite <- U. apply in_map. apply elem_of_list_In. by eapply elem_of_list_lookup_2. }
      rewrite pairs_arrived in Hin. apply in_map_iff in Hin as (i' & E' & Hi'). apply in_seq in Hi'.
      unfold uid_of in E. rewrite <- E' in E. cbn in E. apply (f_equal length) in E. cbn in E.
      rewrite !replicate_length in E. lia. }
    assert (Lu : length (s_ups (after (pairs k))) = 2 * k + 1).
    { rewrite <- (map_length fst), U, pairs_arrived, map_length, seq_length. done. }
    assert (E : after (pairs (S k)) = run (after (pairs k)) (round (pair_upload (2 * k + 1)) (pair_upload (2 * k + 2)) (2 * k + 1))).
    { unfold after, run. cbn [pairs]. by rewrite fold_left_app. }
    rewrite E.
    destruct (after (pairs k)) as [d l]. cbn [s_db s_ups] in *.
    destruct (round_grows (N.of_nat (length (pairs k))) d s l (pair_upload (2 * k + 1)) (pair_upload (2 * k + 2)) o)
      as (d' & s' & o' & a & b & R1 & R2 & R3 & R4); try done.
    + rewrite Ln. change (2 ^ 63)%N with (16 * 2 ^ 59)%N. lia.
    + apply Free. lia.
    + apply Free. lia.
    + cbn. intros X0. apply (f_equal length) in X0. cbn in X0. rewrite !replicate_length in X0. lia.
    + intros X0. rewrite X0, map_size_empty in Hsz. done.
    + rewrite Lu in R1. rewrite R1. cbn [s_ups s_db]. split.
      * apply List.Forall_app. split; [done|]. repeat constructor; by eexists.
      * exists s', o'. split_and!; [done|done|]. by rewrite R4, Hsz.
Qed.

Lemma prefix_pairs : forall k a b, pairs k = a ++ b -> (N.of_nat k < 2 ^ 59)%N -> busy (after a) <= 2.
Proof.
  induction k as [|k IH]; intros a b E Hk.
  - pose proof (busy_run a (start db_empty)) as B. fold (after a) in B.
    assert (length (arrived (pairs 0)) = 1) as L by done. rewrite E, arrived_app, app_length in L.
    change (busy (start db_empty)) with 0 in B. lia.
  - cbn [pairs] in E.
    assert (C : (exists c, pairs k = a ++ c) \/ exists c, a = pairs k ++ c /\
        round (pair_upload (2 * k + 1)) (pair_upload (2 * k + 2)) (2 * k + 1) = c ++ b).
    { apply app_eq_inv in E as [(c & E1 & E2)|(c & E1 & E2)]; [left; by exists c|right; by exists c]. }
    destruct C as [(c & C)|(c & -> & C)]; [eapply IH; [exact C|lia]|].
    assert (after (pairs k ++ c) = run (after (pairs k)) c) as -> by (unfold after, run; apply fold_left_app).
    pose proof (busy_run c (after (pairs k))) as B.
    assert (length (arrived (c ++ b)) = 2) as L by (by rewrite <- C). rewrite arrived_app, app_length in L.
    assert (busy (after (pairs k)) = 0); [|lia].
    destruct (pairs_state k) as [F _]; [lia|]. unfold busy. induction F as [|x xs [n Hn] F IHF]; [done|].
    cbn. by rewrite Hn.
Qed.

Lemma pairs_grow : forall k, (N.of_nat k < 2 ^ 59)%N ->
  exists l, NoDup l /\ length l = S k /\ Forall (has_version (s_db (after (pairs k))) (s2l "b/o"%string)) l.
Proof.
  intros k Hk. destruct (pairs_state k Hk) as [_ (s & o & Sm & Ho & Hsz)].
  exists (map fst (map_to_list (o_vers o))). split_and!.
  - apply NoDup_fst_map_to_list.
  - by rewrite map_length.
  - apply List.Forall_forall. intros n Hn. apply elem_of_list_In in Hn.
    apply elem_of_list_fmap in Hn as ([n' v] & -> & Hn). apply elem_of_map_to_list in Hn.
    apply (sim_has _ s _ o); [done|done|by eexists].
Qed.
