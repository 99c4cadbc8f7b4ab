(** Proofs about registration and discovery. *)
From Verif Require Import Str_Model Str_Proofs Meta_Model Meta_Proofs Registry_Model Registry_Spec.
From stdpp Require Import gmap.
From Coq Require Import Lia.
Local Open Scope list_scope.

Lemma eqb_str : forall a b, str_eqb a b = true <-> a = b.
Proof. intros a b. unfold str_eqb. destruct (str_eq_dec a b); split; congruence. Qed.
Lemma neqb_str : forall a b, str_eqb a b = false <-> a <> b.
Proof. intros a b. unfold str_eqb. destruct (str_eq_dec a b); split; congruence. Qed.

(** ** Discovery *)

Lemma etcd_snoc : forall log e, etcd_at (log ++ [e]) = apply_event (etcd_at log) e.
Proof. intros. unfold etcd_at. by rewrite foldl_app. Qed.

Lemma apply_other : forall m e k, event_key e <> k -> apply_event m e !! k = m !! k.
Proof.
  intros m e k N. destruct e as [k' v|k']; cbn in *; [by rewrite lookup_insert_ne|by rewrite lookup_delete_ne].
Qed.
Lemma apply_own : forall m m' e k, event_key e = k -> apply_event m e !! k = apply_event m' e !! k.
Proof.
  intros m m' e k <-. destruct e as [k' v|k']; cbn; [by rewrite !lookup_insert|by rewrite !lookup_delete].
Qed.

Lemma foldl_other : forall es m k, Forall (fun e => event_key e <> k) es -> foldl apply_event m es !! k = m !! k.
Proof.
  induction es as [|e es IH]; intros m k F; cbn [foldl]; [done|]. apply Forall_cons in F as [N F].
  rewrite IH by done. by apply apply_other.
Qed.

Lemma etcd_split : forall log i, etcd_at log = foldl apply_event (etcd_at (take i log)) (drop i log).
Proof. intros log i. unfold etcd_at. rewrite <- foldl_app, take_drop. done. Qed.

Lemma etcd_idle : forall log i k, existsb (fun e => str_eqb (event_key e) k) (drop i log) = false ->
  etcd_at (take i log) !! k = etcd_at log !! k.
Proof.
  intros log i k E. rewrite (etcd_split log i). symmetry. apply foldl_other. apply Forall_forall. intros e I.
  apply elem_of_list_In in I. apply neqb_str. destruct (str_eqb (event_key e) k) eqn:Q; [|done].
  exfalso. assert (existsb (fun e => str_eqb (event_key e) k) (drop i log) = true) as Y by (apply existsb_exists; eauto).
  congruence.
Qed.

Lemma etcd_take_S : forall log i e, log !! i = Some e -> etcd_at (take (S i) log) = apply_event (etcd_at (take i log)) e.
Proof. intros log i e E. rewrite (take_S_r _ _ _ E). apply etcd_snoc. Qed.

(** What holds of [k] in each phase as long as nothing was missed. *)
Definition vinv (p k : str) (s : view) (b : bool) : Prop :=
  match w_phase s with
  | PStart => w_data s !! k = None
  | PGot | PBroken => b = false -> up_to_date p s k
  | PWatch i => i <= length (w_log s) /\ (b = false -> as_of p i s k)
  | PDead => True
  end.

Lemma filter_lookup : forall p (m : gmap str str) k,
  filter (fun kv => prefixb p kv.1 = true) m !! k = if prefixb p k then m !! k else None.
Proof.
  intros p m k. destruct (m !! k) as [v|] eqn:E.
  - destruct (prefixb p k) eqn:Q.
    + apply map_filter_lookup_Some. split; [exact E|]. exact Q.
    + apply map_filter_lookup_None. right. intros v' E' Y. cbn in Y. congruence.
  - destruct (prefixb p k); apply map_filter_lookup_None; left; exact E.
Qed.

(** Keys outside of the prefix are never in the copy. *)
Lemma outside_step : forall p k s o, ~ enters k o -> prefixb p k = false -> w_data s !! k = None ->
  w_data (vstep p s o) !! k = None.
Proof.
  intros p k [log ph d] o NE P I. cbn in I. destruct o as [e| | | | | |k' v]; cbn [vstep w_log w_phase w_data] in *.
  - exact I.
  - destruct ph; cbn [w_data]; try exact I. rewrite lookup_union, filter_lookup, P, I. done.
  - destruct ph; exact I.
  - destruct ph; exact I.
  - destruct ph as [| |i| |]; try exact I. destruct (log !! i) as [e|]; [|exact I]. cbn [w_data].
    destruct (prefixb p (event_key e)) eqn:Q; [|exact I]. rewrite apply_other; [exact I|]. intros Y. rewrite Y in Q. congruence.
  - destruct ph; exact I.
  - rewrite lookup_insert_ne; [exact I|]. intros ->. apply NE. by exists v.
Qed.
Lemma outside_run : forall p k ops s, Forall (fun o => ~ enters k o) ops -> prefixb p k = false -> w_data s !! k = None ->
  w_data (vrun p s ops) !! k = None.
Proof.
  intros p k. induction ops as [|o ops IH]; intros s F P I; cbn; [exact I|]. apply Forall_cons in F as [N F].
  apply IH; [done|done|]. by apply outside_step.
Qed.

Lemma vinv_step : forall p k s o b, prefixb p k = true -> ~ enters k o -> vinv p k s b -> vinv p k (vstep p s o) (misses k s o b).
Proof.
  intros p k [log ph d] o b P NE I. unfold vinv in *. destruct o as [e| | | | | |k' v]; cbn [vstep w_log w_phase w_data misses] in *.
  - destruct ph as [| |i| |]; cbn [w_log w_phase w_data] in *; [done| | | |done].
    + intros B. apply orb_false_iff in B as [B Q]. apply neqb_str in Q. specialize (I B).
      unfold up_to_date in *; cbn [w_log w_data] in *. rewrite I, etcd_snoc, apply_other by done. done.
    + destruct I as [L I]. split; [rewrite app_length; cbn; lia|]. intros B. specialize (I B).
      unfold as_of in *; cbn [w_log w_data] in *. rewrite take_app_le by done. exact I.
    + intros B. apply orb_false_iff in B as [B Q]. apply neqb_str in Q. specialize (I B).
      unfold up_to_date in *; cbn [w_log w_data] in *. rewrite I, etcd_snoc, apply_other by done. done.
  - destruct ph as [| |i| |]; cbn [w_log w_phase w_data] in *; [|done|done|done|done]. intros _.
    unfold up_to_date; cbn [w_log w_data]. rewrite lookup_union, filter_lookup, I. by destruct (if prefixb p k then _ else _).
  - destruct ph as [| |i| |]; cbn [w_log w_phase w_data] in *; done.
  - destruct ph as [| |i| |]; cbn [w_log w_phase w_data] in *; [done| |done| |done].
    + split; [lia|]. intros B. unfold as_of; cbn [w_log w_data]. rewrite take_ge by lia. exact (I B).
    + split; [lia|]. intros B. unfold as_of; cbn [w_log w_data]. rewrite take_ge by lia. exact (I B).
  - destruct ph as [| |i| |]; cbn [w_log w_phase w_data] in *; [done|done| |done|done].
    destruct I as [L I]. destruct (log !! i) as [e|] eqn:E; cbn [w_log w_phase w_data].
    + split; [apply lookup_lt_Some in E; lia|]. intros B. unfold as_of in *; cbn [w_log w_data] in *.
      rewrite (etcd_take_S _ _ _ E). destruct (str_eqb (event_key e) k) eqn:Q.
      * apply eqb_str in Q. rewrite Q, P. by apply apply_own.
      * cbn in B. rewrite andb_true_r in B. specialize (I B). apply neqb_str in Q.
        rewrite (apply_other (etcd_at _)) by done. rewrite <- I. destruct (prefixb p (event_key e)); [|done].
        by apply apply_other.
    + done.
  - destruct ph as [| |i| |]; cbn [w_log w_phase w_data] in *; [done|done| |done|done].
    destruct I as [L I]. intros B. apply orb_false_iff in B as [B Q]. specialize (I B).
    unfold up_to_date, as_of in *; cbn [w_log w_data] in *. rewrite I. destruct (prefixb p k); [|done]. by apply etcd_idle.
  - assert (k <> k') as N by (intros ->; apply NE; by exists v).
    destruct ph as [| |i| |]; unfold up_to_date, as_of in *; cbn [w_log w_phase w_data] in *; rewrite ?lookup_insert_ne by done; done.
Qed.

Lemma vinv_run : forall p k ops s b, prefixb p k = true -> Forall (fun o => ~ enters k o) ops -> vinv p k s b ->
  vinv p k (vrun p s ops) (missed p k s ops b).
Proof.
  intros p k. induction ops as [|o ops IH]; intros s b P F I; cbn; [exact I|]. apply Forall_cons in F as [N F].
  apply IH; [done|done|]. by apply vinv_step.
Qed.

Lemma right_run : forall p k log ops i, Forall (fun o => ~ enters k o) ops ->
  w_phase (vrun p (vstart log) ops) = PWatch i -> missed p k (vstart log) ops false = false ->
  as_of p i (vrun p (vstart log) ops) k.
Proof.
  intros p k log ops i F Ph M. destruct (prefixb p k) eqn:P.
  - assert (vinv p k (vstart log) false) as I0 by done.
    pose proof (vinv_run p k ops (vstart log) false P F I0) as I. unfold vinv in I. rewrite Ph in I.
    destruct I as [_ I]. exact (I M).
  - unfold as_of. rewrite P. apply outside_run; done.
Qed.

(** A calm run misses nothing. *)
Lemma missed_app : forall p k a b s m, missed p k s (a ++ b) m = missed p k (vrun p s a) b (missed p k s a m).
Proof. intros p k. induction a as [|o a IH]; intros b s m; cbn; [done|]. apply IH. Qed.
Lemma vrun_app : forall p a b s, vrun p s (a ++ b) = vrun p (vrun p s a) b.
Proof. intros. unfold vrun. apply foldl_app. Qed.

Lemma vrun_cons : forall p o l s, vrun p s (o :: l) = vrun p (vstep p s o) l.
Proof. done. Qed.

Lemma phase_self : forall p s k v, w_phase (vstep p s (VSelf k v)) = w_phase s.
Proof. done. Qed.

Lemma calm_run : forall p k log ops, calm ops ->
  missed p k (vstart log) ops false = false /\ exists i, w_phase (vrun p (vstart log) ops) = PWatch i.
Proof.
  intros p k log ops (pre & mid & post & -> & F1 & F2 & F3).
  assert (forall l s m, Forall (fun o => (exists e, o = VEvent e) \/ (exists k v, o = VSelf k v)) l -> w_phase s = PStart ->
    missed p k s l m = m /\ w_phase (vrun p s l) = PStart) as A1.
  { induction l as [|o l IH]; intros s m F P; cbn; [done|]. apply Forall_cons in F as [O F].
    destruct O as [[e ->]|(k' & v & ->)]; cbn; [rewrite P|]; by apply IH. }
  assert (forall l s m, Forall (fun o => exists k v, o = VSelf k v) l -> w_phase s = PGot ->
    missed p k s l m = m /\ w_phase (vrun p s l) = PGot) as A2.
  { induction l as [|o l IH]; intros s m F P; cbn; [done|]. apply Forall_cons in F as [(k' & v & ->) F]. cbn. by apply IH. }
  assert (forall l s, Forall (fun o => o = VDeliver \/ (exists e, o = VEvent e) \/ (exists k v, o = VSelf k v)) l ->
    (exists i, w_phase s = PWatch i) ->
    missed p k s l false = false /\ exists i, w_phase (vrun p s l) = PWatch i) as A3.
  { induction l as [|o l IH]; intros s F [i P]; cbn; [eauto|]. apply Forall_cons in F as [O F].
    destruct O as [->|[[e ->]|(k' & v & ->)]]; cbn; rewrite ?P.
    - destruct (w_log s !! i) as [e|]; apply IH; try done; cbn; eauto.
    - apply IH; cbn; eauto.
    - apply IH; cbn; eauto. }
  rewrite missed_app, vrun_app. destruct (A1 pre (vstart log) false F1 eq_refl) as [-> P1].
  set (s1 := vrun p (vstart log) pre) in *. rewrite vrun_cons. cbn [missed misses]. rewrite missed_app, vrun_app.
  assert (w_phase (vstep p s1 VGet) = PGot) as PG by (cbn; rewrite P1; done).
  match goal with |- context [missed p k ?s mid ?m] => destruct (A2 mid s m F2 PG) as [-> P2]; set (s2 := s) in * end.
  set (s3 := vrun p s2 mid) in *. rewrite vrun_cons. cbn [missed misses].
  apply A3; [done|]. cbn [vstep]. rewrite P2. cbn. eauto.
Qed.

(** What was missed stays wrong. *)
Definition late (s : view) : Prop := match w_phase s with PGot | PBroken | PWatch _ => True | _ => False end.

Definition pending_clean (k : str) (s : view) : Prop :=
  match w_phase s with
  | PGot | PBroken => True
  | PWatch i => i <= length (w_log s) /\ Forall (fun e => event_key e <> k) (drop i (w_log s))
  | _ => False
  end.

Lemma stuck_step : forall p k s o, ~ enters k o -> ~ changes k o -> pending_clean k s ->
  pending_clean k (vstep p s o) /\ w_data (vstep p s o) !! k = w_data s !! k /\
  etcd_at (w_log (vstep p s o)) !! k = etcd_at (w_log s) !! k.
Proof.
  intros p k [log ph d] o NE NC I. unfold pending_clean in *. destruct o as [e| | | | | |k' v]; cbn [vstep w_log w_phase w_data] in *.
  - assert (event_key e <> k) as N by (intros Q; apply NC; by exists e). split; [|split; [done|rewrite etcd_snoc; by apply apply_other]].
    destruct ph as [| |i| |]; try done. destruct I as [L I]. split; [rewrite app_length; cbn; lia|].
    rewrite drop_app_le by done. apply Forall_app. split; [done|]. by constructor.
  - destruct ph; try done.
  - destruct ph; try done.
  - destruct ph as [| |i| |]; try done; cbn [w_log w_phase w_data]; (split; [|done]); (split; [lia|]); rewrite drop_ge by lia; constructor.
  - destruct ph as [| |i| |]; try done. destruct I as [L I]. destruct (log !! i) as [e|] eqn:E; [|done]. cbn [w_log w_phase w_data].
    rewrite (drop_S _ _ _ E) in I. apply Forall_cons in I as [N I]. split; [|split; [|done]].
    + split; [apply lookup_lt_Some in E; lia|done].
    + destruct (prefixb p (event_key e)); [by apply apply_other|done].
  - destruct ph as [| |i| |]; done.
  - assert (k <> k') as N by (intros ->; apply NE; by exists v). split; [done|]. by rewrite lookup_insert_ne.
Qed.
Lemma stuck_run : forall p k ops s, Forall (fun o => ~ enters k o /\ ~ changes k o) ops -> pending_clean k s ->
  w_data (vrun p s ops) !! k = w_data s !! k /\ etcd_at (w_log (vrun p s ops)) !! k = etcd_at (w_log s) !! k.
Proof.
  intros p k. induction ops as [|o ops IH]; intros s F I; cbn; [done|]. apply Forall_cons in F as [[N1 N2] F].
  destruct (stuck_step p k s o N1 N2 I) as (I' & D & E). destruct (IH _ F I') as [D' E']. fold (vrun p) in *.
  unfold vrun in *. split; [by rewrite D', D|by rewrite E', E].
Qed.

Lemma dead_run : forall p ops s, w_phase s = PDead -> forall k, Forall (fun o => ~ enters k o) ops ->
  w_data (vrun p s ops) !! k = w_data s !! k.
Proof.
  intros p. induction ops as [|o ops IH]; intros s P k F; cbn; [done|]. apply Forall_cons in F as [N F].
  fold (vrun p). unfold vrun in *. rewrite IH.
  - destruct o as [e| | | | | |k' v]; cbn; rewrite ?P; try done. rewrite lookup_insert_ne; [done|]. intros ->. apply N. by exists v.
  - destruct o as [e| | | | | |k' v]; cbn; rewrite ?P; done.
  - done.
Qed.

(** The server's own entry stays. *)
Lemma self_step : forall p k v s o, prefixb p k = false -> (forall v', o = VSelf k v' -> v' = v) -> w_data s !! k = Some v ->
  w_data (vstep p s o) !! k = Some v.
Proof.
  intros p k v [log ph d] o P N I. cbn in I. destruct o as [e| | | | | |k' v']; cbn [vstep w_log w_phase w_data] in *.
  - exact I.
  - destruct ph; cbn [w_data]; try exact I. rewrite lookup_union, filter_lookup, P, I. done.
  - destruct ph; exact I.
  - destruct ph; exact I.
  - destruct ph as [| |i| |]; try exact I. destruct (log !! i) as [e|]; [|exact I]. cbn [w_data].
    destruct (prefixb p (event_key e)) eqn:Q; [|exact I]. rewrite apply_other; [exact I|]. intros Y. rewrite Y in Q. congruence.
  - destruct ph; exact I.
  - destruct (decide (k = k')) as [->|NE]; [rewrite lookup_insert; f_equal; by apply N|by rewrite lookup_insert_ne].
Qed.
Lemma self_run : forall p k v ops s, prefixb p k = false -> Forall (fun o => forall v', o = VSelf k v' -> v' = v) ops ->
  w_data s !! k = Some v -> w_data (vrun p s ops) !! k = Some v.
Proof.
  intros p k v. induction ops as [|o ops IH]; intros s P F I; cbn; [exact I|]. apply Forall_cons in F as [N F].
  apply IH; [done|done|]. by apply self_step.
Qed.

(** ** Ids *)

Lemma cut_on_none : forall c s, ~ In c s -> cut_on c s = None.
Proof.
  intros c. induction s as [|x s IH]; intros H; cbn; [done|]. destruct (ascii_dec x c) as [->|]; [exfalso; apply H; by left|].
  rewrite IH; [done|]. intros I. apply H. by right.
Qed.
Lemma cut_on_app : forall c a b, ~ In c a -> cut_on c (a ++ c :: b) = Some (a, b).
Proof.
  intros c. induction a as [|x a IH]; intros b H; cbn.
  - by destruct (ascii_dec c c).
  - destruct (ascii_dec x c) as [->|]; [exfalso; apply H; by left|]. rewrite IH; [done|]. intros I. apply H. by right.
Qed.
Lemma cut_on_some : forall c s a b, cut_on c s = Some (a, b) -> s = a ++ c :: b /\ ~ In c a.
Proof.
  intros c. induction s as [|x s IH]; intros a b H; cbn in H; [done|]. destruct (ascii_dec x c) as [->|N].
  - injection H as <- <-. split; [done|]. cbn. tauto.
  - destruct (cut_on c s) as [[a' b']|] eqn:E; [|done]. injection H as <- <-. destruct (IH a' b' eq_refl) as [-> I].
    split; [done|]. intros [->|J]; [done|]. by apply I.
Qed.

Definition base (c : rcfg) : str := rc_group c ++ s2l "/registry/"%string ++ rc_name c.
Lemma reg_key_split : forall c r, reg_key c r = base c ++ "/"%char :: (sid c ++ role_suffix r).
Proof. intros c r. unfold reg_key, fmt_registry, base. rewrite <- !app_assoc. done. Qed.

Lemma suffix_no_slash : forall r, ~ In "/"%char (role_suffix r).
Proof. intros []; vm_compute; intuition discriminate. Qed.

Lemma cut_last_in : forall c s, In c s -> exists a b, cut_last c s = Some (a, b) /\ s = a ++ c :: b.
Proof.
  intros c. induction s as [|x s IH]; intros H; [done|]. cbn [cut_last]. destruct (in_dec ascii_dec c s) as [I|N].
  - destruct (IH I) as (a & b & -> & ->). by exists (x :: a), b.
  - destruct H as [->|I]; [|done]. rewrite (cut_last_none _ _ N). destruct (ascii_dec c c); [|done]. by exists [], s.
Qed.
Lemma cut_last_right : forall c x y a b, ~ In c y -> cut_last c x = Some (a, b) -> cut_last c (x ++ y) = Some (a, b ++ y).
Proof.
  intros c. induction x as [|z x IH]; intros y a b N E; [done|]. cbn [cut_last app] in *.
  destruct (cut_last c x) as [[a' b']|] eqn:Q.
  - rewrite (IH y a' b' N eq_refl). by injection E as <- <-.
  - destruct (ascii_dec z c) as [->|]; [|done]. injection E as <- <-.
    rewrite cut_last_none; [destruct (ascii_dec c c); done|]. rewrite in_app_iff. intros [I|I]; [|done].
    destruct (cut_last_in c x I) as (a & b & Y & _). congruence.
Qed.

Lemma slash_cut : forall c r, ~ In "/"%char (sid c) -> cut_last "/" (reg_key c r) = Some (base c, sid c ++ role_suffix r).
Proof.
  intros c r N. rewrite reg_key_split. apply cut_last_app. rewrite in_app_iff. intros [I|I]; [done|]. by eapply suffix_no_slash.
Qed.

Lemma key_id_role : forall c r, ~ In "/"%char (sid c) -> r <> RPlain -> key_id (reg_key c r) = FId (sid c).
Proof.
  intros c r N R. unfold key_id. rewrite slash_cut by done.
  assert (exists w, role_suffix r = "_"%char :: w /\ ~ In "_"%char w) as (w & W & NW).
  { destruct r; [done| |]; eexists; (split; [reflexivity|vm_compute; intuition discriminate]). }
  assert (cut_last "_" (reg_key c r) = Some (base c ++ "/"%char :: sid c, w)) as ->.
  { rewrite reg_key_split, W. rewrite app_comm_cons, app_assoc. by apply cut_last_app. }
  rewrite W. assert (length (base c ++ "/"%char :: sid c) = S (length (base c)) + length (sid c)) as ->
    by (rewrite app_length; cbn; lia).
  destruct (Nat.ltb_spec (S (length (base c)) + length (sid c)) (S (length (base c)))); [lia|].
  replace (S (length (base c)) + length (sid c) - S (length (base c))) with (length (sid c)) by lia.
  f_equal. by rewrite take_app.
Qed.

Lemma base_no : forall c, ~ In "_"%char (rc_group c) -> ~ In "_"%char (rc_name c) -> ~ In "_"%char (base c).
Proof.
  intros c A B. unfold base. rewrite !in_app_iff. intros [I|[I|I]]; [done| |done].
  revert I. vm_compute. intuition discriminate.
Qed.

Lemma key_id_plain : forall c, readable c RPlain -> key_id (reg_key c RPlain) = FId (sid c).
Proof.
  intros c [N U]. destruct (U eq_refl) as (U1 & U2 & U3). unfold key_id. rewrite slash_cut by done.
  rewrite cut_last_none.
  2:{ rewrite reg_key_split. rewrite in_app_iff. intros [I|I]; [by apply (base_no c)|]. destruct I as [I|I]; [done|].
      cbn in I. rewrite app_nil_r in I. done. }
  rewrite reg_key_split, app_length. cbn [length role_suffix]. rewrite app_nil_r.
  destruct (Nat.ltb_spec (length (base c) + S (length (sid c))) (S (length (base c)))); [lia|].
  replace (length (base c) + S (length (sid c)) - S (length (base c))) with (length (sid c)) by lia.
  f_equal. apply firstn_all.
Qed.

Lemma key_id_read : forall c r, readable c r -> key_id (reg_key c r) = FId (sid c).
Proof.
  intros c r R. destruct r; [by apply key_id_plain| |]; apply key_id_role; try done; apply R.
Qed.

Lemma key_id_panics : forall c, ~ In "/"%char (sid c) -> ~ In "_"%char (sid c) ->
  In "_"%char (rc_group c) \/ In "_"%char (rc_name c) -> key_id (reg_key c RPlain) = FPanic.
Proof.
  intros c N1 N2 H. unfold key_id. rewrite slash_cut by done.
  assert (In "_"%char (base c)) as I by (unfold base; rewrite !in_app_iff; tauto).
  destruct (cut_last_in _ _ I) as (a & b & E & Q). rewrite reg_key_split. cbn [role_suffix]. rewrite app_nil_r.
  rewrite (cut_last_right _ _ ("/"%char :: sid c) _ _) with (2 := E).
  2:{ intros [J|J]; done. }
  assert (length a < length (base c)) as L by (rewrite Q, app_length; cbn; lia).
  destruct (Nat.ltb_spec (length a) (S (length (base c)))); [done|lia].
Qed.

Lemma key_id_truncates : forall c a b, sid c = a ++ "_"%char :: b -> ~ In "/"%char (sid c) -> ~ In "_"%char b ->
  key_id (reg_key c RPlain) = FId a.
Proof.
  intros c a b E N1 N2. unfold key_id. rewrite slash_cut by done. rewrite reg_key_split. cbn [role_suffix]. rewrite app_nil_r, E.
  rewrite app_comm_cons, app_assoc, cut_last_app by done. rewrite app_length. cbn [length].
  destruct (Nat.ltb_spec (length (base c) + S (length a)) (S (length (base c)))); [lia|].
  replace (length (base c) + S (length a) - S (length (base c))) with (length a) by lia. f_equal. by rewrite take_app.
Qed.

Lemma mapping_finds : forall l acc, Forall (fun x => readable x.1 x.2) l -> NoDup ((fun x => sid x.1) <$> l) ->
  (forall x, x ∈ l -> acc !! sid x.1 = None) ->
  exists m, mapping (map entry_of l) acc = Some m /\
    forall i a, m !! i = Some a <-> (acc !! i = Some a \/ exists x, x ∈ l /\ sid x.1 = i /\ rc_addr x.1 = a).
Proof.
  induction l as [|[c r] l IH]; intros acc F ND A.
  - exists acc. split; [done|]. intros i a. split; [by left|]. intros [|(x & I & _)]; [done|]. by apply elem_of_nil in I.
  - apply Forall_cons in F as [R F]. cbn [fst snd] in R. rewrite fmap_cons in ND. apply NoDup_cons in ND as [NI ND]. cbn [fst] in NI.
    cbn [map mapping]. unfold entry_of at 1. cbn [fst snd]. rewrite (key_id_read _ _ R).
    destruct (IH (<[sid c := rc_addr c]> acc) F ND) as (m & E & H).
    { intros x I. rewrite lookup_insert_ne; [apply A; by right|]. intros Q. apply NI. rewrite Q.
      apply (elem_of_list_fmap_1 (fun x => sid x.1)). exact I. }
    exists m. split; [exact E|]. intros i a. rewrite H. pose proof (A (c, r) (elem_of_list_here _ _)) as A0. cbn in A0. split.
    + intros [I|(x & I & Q)]; [|right; exists x; split; [by right|done]].
      apply lookup_insert_Some in I as [[<- <-]|[N I]]; [|by left]. right. exists (c, r). split; [left|done].
    + intros [I|(x & I & Q1 & Q2)].
      * left. rewrite lookup_insert_ne; [done|]. intros <-. congruence.
      * apply elem_of_cons in I as [->|I]; [|right; by exists x]. cbn in Q1, Q2. subst. left. apply lookup_insert.
Qed.

Lemma perm_entries : forall l kvs, Permutation kvs (map entry_of l) -> exists l', kvs = map entry_of l' /\ Permutation l l'.
Proof. intros l kvs P. exact (Permutation_map_inv entry_of l P). Qed.

Lemma mapping_perm : forall l kvs, Forall (fun x => readable x.1 x.2) l -> NoDup ((fun x => sid x.1) <$> l) ->
  Permutation kvs (map entry_of l) -> exists m, mapping kvs ∅ = Some m /\ finds m l.
Proof.
  intros l kvs F ND P. destruct (perm_entries l kvs P) as (l' & -> & P').
  destruct (mapping_finds l' ∅) as (m & E & H).
  - by rewrite <- P'.
  - by rewrite <- P'.
  - intros x _. apply lookup_empty.
  - exists m. split; [exact E|]. intros i a. rewrite H. rewrite lookup_empty. split.
    + intros [|(x & I & Q)]; [done|]. exists x. split; [by rewrite P'|done].
    + intros (x & I & Q). right. exists x. split; [by rewrite <- P'|done].
Qed.

Lemma mapping_panics : forall kvs acc k a, In (k, a) kvs -> key_id k = FPanic -> mapping kvs acc = None.
Proof.
  induction kvs as [|[k' a'] kvs IH]; intros acc k a I E; [done|]. cbn [mapping]. destruct I as [Q|I].
  - injection Q as -> ->. by rewrite E.
  - destruct (key_id k'); [by eapply IH|by eapply IH|done].
Qed.

Lemma key_id_with_read : forall mst c r, ~ In "/"%char (sid c) -> ~ In "_"%char (sid c) ->
  key_id_with mst (reg_key c r) = if asked mst r then Some (sid c) else None.
Proof.
  intros mst c r N1 N2. unfold key_id_with. rewrite slash_cut by done. destruct r; cbn [role_suffix asked].
  - rewrite app_nil_r, cut_on_none by done. done.
  - change (s2l "_master"%string) with ("_"%char :: s2l "master"%string). rewrite cut_on_app by done. destruct mst; done.
  - change (s2l "_slave"%string) with ("_"%char :: s2l "slave"%string). rewrite cut_on_app by done. destruct mst; done.
Qed.

Lemma key_id_with_lost : forall c, ~ In "/"%char (sid c) -> In "_"%char (sid c) ->
  key_id_with true (reg_key c RMaster) = None.
Proof.
  intros c N I. unfold key_id_with. rewrite slash_cut by done.
  destruct (cut_on "_" (sid c ++ role_suffix RMaster)) as [[i r]|] eqn:E.
  - destruct (str_eqb r (s2l "master"%string)) eqn:Q; [|done]. apply eqb_str in Q. subst r.
    apply cut_on_some in E as [E NI]. exfalso. cbn [role_suffix] in E.
    change (s2l "_master"%string) with ("_"%char :: s2l "master"%string) in E.
    apply app_inv_tail in E. subst i. done.
  - exfalso. clear N. revert I E. generalize (sid c). intros s. induction s as [|x s IH]; intros I E; [done|]. cbn [app cut_on] in E.
    destruct (ascii_dec x "_"); [done|]. destruct I as [->|I]; [done|]. apply IH; [done|].
    destruct (cut_on "_" (s ++ role_suffix RMaster)) as [[? ?]|]; done.
Qed.

Lemma with_finds : forall mst l acc, Forall (fun x => ~ In "/"%char (sid x.1) /\ ~ In "_"%char (sid x.1)) l ->
  NoDup ((fun x => sid x.1) <$> l) -> (forall x, x ∈ l -> acc !! sid x.1 = None) ->
  forall i a, mapping_with mst (map entry_of l) acc !! i = Some a <->
    (acc !! i = Some a \/ exists x, x ∈ l /\ asked mst x.2 = true /\ sid x.1 = i /\ rc_addr x.1 = a).
Proof.
  intros mst. induction l as [|[c r] l IH]; intros acc F ND A i a.
  - cbn. split; [by left|]. intros [|(x & I & _)]; [done|]. by apply elem_of_nil in I.
  - apply Forall_cons in F as [[N1 N2] F]. cbn [fst snd] in N1, N2. rewrite fmap_cons in ND. apply NoDup_cons in ND as [NI ND]. cbn [fst] in NI.
    cbn [map mapping_with]. unfold entry_of at 1. cbn [fst snd]. rewrite (key_id_with_read _ _ _ N1 N2).
    pose proof (A (c, r) (elem_of_list_here _ _)) as A0. cbn in A0.
    assert (forall x, x ∈ l -> sid c <> sid x.1) as D.
    { intros x I Q. apply NI. rewrite Q. apply (elem_of_list_fmap_1 (fun x => sid x.1)). exact I. }
    destruct (asked mst r) eqn:K.
    + rewrite IH; [|done|done|].
      2:{ intros x I. rewrite lookup_insert_ne; [apply A; by right|]. by apply D. }
      split.
      * intros [I|(x & I & Q)]; [|right; exists x; split; [by right|done]].
        apply lookup_insert_Some in I as [[<- <-]|[N I]]; [|by left]. right. exists (c, r). split; [left|done].
      * intros [I|(x & I & Q0 & Q1 & Q2)].
        -- left. rewrite lookup_insert_ne; [done|]. intros <-. congruence.
        -- apply elem_of_cons in I as [->|I]; [|right; by exists x]. cbn in Q1, Q2. subst. left. apply lookup_insert.
    + rewrite IH; [|done|done|intros x I; apply A; by right]. split.
      * intros [I|(x & I & Q)]; [by left|]. right. exists x. split; [by right|done].
      * intros [I|(x & I & Q0 & Q1 & Q2)]; [by left|]. apply elem_of_cons in I as [->|I]; [cbn in Q0; congruence|].
        right. by exists x.
Qed.

(** Prefixes *)
Lemma prefixb_same : forall a b c, prefixb (a ++ b) (a ++ c) = prefixb b c.
Proof. induction a as [|x a IH]; intros b c; cbn; [done|]. destruct (ascii_dec x x); [apply IH|done]. Qed.
Lemma prefixb_slash : forall n m x, ~ In "/"%char n -> prefixb n (m ++ "/"%char :: x) = prefixb n m.
Proof.
  induction n as [|y n IH]; intros m x N; [by destruct m|]. destruct m as [|z m]; cbn.
  - destruct (ascii_dec y "/") as [->|]; [exfalso; apply N; by left|done].
  - destruct (ascii_dec y z); [|done]. apply IH. intros I. apply N. by right.
Qed.
Lemma prefixb_app : forall a b, prefixb a (a ++ b) = true.
Proof. induction a as [|x a IH]; intros b; cbn; [by destruct b|]. destruct (ascii_dec x x); [apply IH|done]. Qed.

Lemma prefix_service : forall n c r, ~ In "/"%char n -> prefixb (fmt_registry (rc_group c) n) (reg_key c r) = prefixb n (rc_name c).
Proof.
  intros n c r N. unfold reg_key, fmt_registry. rewrite !prefixb_same. by apply prefixb_slash.
Qed.

(** Default ids *)
Lemma dashes_app : forall a b, dashes (a ++ b) = dashes a ++ dashes b.
Proof. induction a as [|c a IH]; intros b; cbn; [done|]. destruct (ascii_dec c "."); [apply IH|]. by rewrite IH. Qed.
Lemma dashes_digits : forall l, Forall is_digit l -> dashes l = l.
Proof.
  induction l as [|c l IH]; intros F; cbn; [done|]. apply Forall_cons in F as [D F]. unfold is_digit in D.
  destruct (ascii_dec c ".") as [->|]; [vm_compute in D; intuition congruence|].
  destruct (ascii_dec c ":") as [->|]; [vm_compute in D; intuition congruence|]. by rewrite IH.
Qed.
Lemma digits_no_dash : forall l, Forall is_digit l -> ~ In "-"%char l.
Proof.
  intros l F I. apply elem_of_list_In in I. rewrite Forall_forall in F. specialize (F _ I). unfold is_digit in F. vm_compute in F. intuition congruence.
Qed.
Lemma sid_default : forall c, rc_id c = [] -> sid c = rc_name c ++ "-"%char :: dashes (rc_addr c).
Proof. intros c E. unfold sid. by rewrite E. Qed.

Lemma dashes_inj : forall p l1 l2 q1 q2, Forall is_digit l1 -> Forall is_digit l2 -> Forall is_digit q1 -> Forall is_digit q2 ->
  dashes (p ++ "."%char :: l1 ++ ":"%char :: q1) = dashes (p ++ "."%char :: l2 ++ ":"%char :: q2) -> l1 = l2 /\ q1 = q2.
Proof.
  intros p l1 l2 q1 q2 D1 D2 D3 D4 E. rewrite !dashes_app in E. apply app_inv_head in E.
  change (dashes ("."%char :: l1 ++ ":"%char :: q1)) with (dashes (l1 ++ ":"%char :: q1)) in E.
  change (dashes ("."%char :: l2 ++ ":"%char :: q2)) with (dashes (l2 ++ ":"%char :: q2)) in E.
  rewrite !dashes_app in E.
  change (dashes (":"%char :: q1)) with ("-"%char :: dashes q1) in E.
  change (dashes (":"%char :: q2)) with ("-"%char :: dashes q2) in E.
  rewrite !dashes_digits in E by done.
  assert (cut_on "-" (l1 ++ "-"%char :: q1) = cut_on "-" (l2 ++ "-"%char :: q2)) as C by (by rewrite E).
  rewrite !cut_on_app in C by (by apply digits_no_dash). injection C as -> ->. done.
Qed.

(** ** The lease *)

Lemma in_live : forall l ls, existsb (N.eqb l) ls = true <-> In l ls.
Proof.
  intros l ls. rewrite existsb_exists. split; [intros (x & I & E); apply N.eqb_eq in E; by subst|].
  intros I. exists l. split; [done|apply N.eqb_refl].
Qed.

(** The lock is held only while asking for a lease; at rest the server is registered. *)
Definition linv (s : life) : Prop :=
  (lf_lock s = true <-> lf_pc s = LGrant) /\ lf_ctx s = true /\ lf_pc s <> LDone /\
  ((lf_pc s = LKeep \/ lf_pc s = LWait) -> In (lf_lease s) (lf_live s) ->
     0 < lf_calls s \/ lf_entry s = Some (lf_lease s)).

Lemma linv_step : forall s o, op_served o -> linv s -> linv (lstep s o).
Proof.
  intros [pc lk le lv en ca cx] o O (I1 & I2 & I3 & I4). unfold linv. cbn in *. destruct o as [g k|ok|id|]; cbn in *; try done.
  - destruct pc; cbn in *.
    + destruct lk; cbn; [repeat split; try done; try (intros; intuition discriminate); by apply I1|].
      repeat split; try done; intros; intuition discriminate.
    + destruct g as [id|]; [|done]. cbn. repeat split; try done; intros; intuition discriminate.
    + repeat split; try done; try (intros; intuition discriminate); try (by apply I1). left. lia.
    + destruct k; cbn.
      * repeat split; try done; try (intros; intuition discriminate).
      * repeat split; try done; intros; intuition discriminate.
    + rewrite I2. destruct (existsb (N.eqb le) lv) eqn:E; cbn; [by repeat split; try tauto|].
      repeat split; try done; intros; intuition discriminate.
    + done.
  - destruct ca as [|n]; cbn; [done|]. repeat split; try tauto. intros P L. destruct ok; [|done].
    right. cbn. assert (existsb (N.eqb le) lv = true) as -> by (by apply in_live). done.
  - repeat split; try tauto. intros P L. apply in_remove in L as [L N]. destruct (I4 P L) as [Q|Q]; [by left|]. right.
    rewrite Q. destruct (N.eqb_spec le id); [done|done].
Qed.
Lemma linv_run : forall ops s, Forall op_served ops -> linv s -> linv (lrun s ops).
Proof.
  induction ops as [|o ops IH]; intros s F I; [exact I|]. apply Forall_cons in F as [O F]. cbn. apply IH; [done|]. by apply linv_step.
Qed.
Lemma linv0 : linv life0.
Proof. repeat split; try done; cbn; intuition discriminate. Qed.

(** Steps with etcd answering bring the loop to rest with a live lease. *)
Lemma rest_stays : forall n s id, lf_pc s = LWait -> lf_ctx s = true -> In (lf_lease s) (lf_live s) ->
  lrun s (repeat (LStep (Some id) true) n) = s.
Proof.
  induction n as [|n IH]; intros s id P C L; [done|]. cbn [repeat lrun foldl].
  assert (lstep s (LStep (Some id) true) = s) as ->.
  { cbn. rewrite P, C. apply in_live in L. by rewrite L. }
  by apply IH.
Qed.
Lemma lrun_S : forall n s o, lrun s (repeat o (S n)) = lrun (lstep s o) (repeat o n).
Proof. done. Qed.

Lemma rest_from_lock : forall n s id, lf_pc s = LLock -> lf_lock s = false -> lf_ctx s = true ->
  let s' := lrun s (repeat (LStep (Some id) true) (4 + n)) in lf_pc s' = LWait /\ In (lf_lease s') (lf_live s').
Proof.
  intros n [pc lk le lv en ca cx] id P L C. cbn in P, L, C. subst. cbn zeta. cbn [Nat.add]. rewrite !lrun_S.
  cbn [lstep lf_pc lf_lock lf_lease lf_live lf_entry lf_calls lf_ctx].
  rewrite rest_stays; cbn; auto.
Qed.

Lemma rest7 : forall s id, linv s -> let s' := lrun s (repeat (LStep (Some id) true) 7) in
  lf_pc s' = LWait /\ In (lf_lease s') (lf_live s').
Proof.
  intros [pc lk le lv en ca cx] id (I1 & I2 & I3 & I4). cbn in I1, I2, I3. subst cx.
  assert (pc <> LGrant -> lk = false) as U by (intros N; destruct lk; [exfalso; apply N, I1; done|done]).
  cbn zeta. destruct pc.
  - apply (rest_from_lock 3); cbn; auto; by apply U.
  - rewrite (lrun_S 6), (lrun_S 5), (lrun_S 4). cbn [lstep lf_pc lf_lock lf_lease lf_live lf_entry lf_calls lf_ctx].
    rewrite rest_stays; cbn; auto.
  - rewrite (lrun_S 6), (lrun_S 5). cbn [lstep lf_pc lf_lock lf_lease lf_live lf_entry lf_calls lf_ctx].
    destruct (existsb (N.eqb le) lv) eqn:E.
    + apply in_live in E. rewrite rest_stays; cbn; auto.
    + rewrite (lrun_S 4). cbn [lstep lf_pc lf_lock lf_lease lf_live lf_entry lf_calls lf_ctx]. rewrite E.
      apply (rest_from_lock 0); cbn; auto; by apply U.
  - rewrite (lrun_S 6). cbn [lstep lf_pc lf_lock lf_lease lf_live lf_entry lf_calls lf_ctx].
    destruct (existsb (N.eqb le) lv) eqn:E.
    + apply in_live in E. rewrite rest_stays; cbn; auto.
    + rewrite (lrun_S 5). cbn [lstep lf_pc lf_lock lf_lease lf_live lf_entry lf_calls lf_ctx]. rewrite E.
      apply (rest_from_lock 1); cbn; auto; by apply U.
  - destruct (existsb (N.eqb le) lv) eqn:E.
    + apply in_live in E. rewrite rest_stays; cbn; auto.
    + rewrite (lrun_S 6). cbn [lstep lf_pc lf_lock lf_lease lf_live lf_entry lf_calls lf_ctx]. rewrite E.
      apply (rest_from_lock 2); cbn; auto; by apply U.
  - done.
Qed.

Lemma calls_run : forall n s, In (lf_lease s) (lf_live s) -> lf_calls s <= n ->
  (0 < lf_calls s \/ lf_entry s = Some (lf_lease s)) -> registered (lrun s (repeat (LCall true) n)).
Proof.
  induction n as [|n IH]; intros s L C H.
  - destruct H as [H|H]; [lia|]. cbn. exists (lf_lease s). done.
  - rewrite lrun_S. destruct (lf_calls s) as [|m] eqn:E.
    + assert (lstep s (LCall true) = s) as -> by (cbn; rewrite E; done). apply IH; [done|lia|]. right. destruct H; [lia|done].
    + assert (existsb (N.eqb (lf_lease s)) (lf_live s) = true) as X by (by apply in_live).
      apply IH; cbn; rewrite E; cbn; [done|lia|]. right. rewrite X. done.
Qed.

Lemma calls_steps : forall s o, (exists g k, o = LStep g k) -> lf_calls (lstep s o) <= S (lf_calls s).
Proof.
  intros s o (g & k & ->). cbn. destruct (lf_pc s); cbn; try lia.
  - destruct (lf_lock s); cbn; lia.
  - destruct g; cbn; lia.
  - destruct (lf_ctx s); cbn; [|lia]. destruct (existsb _ _); cbn; lia.
Qed.
Lemma calls_steps_run : forall n s id, lf_calls (lrun s (repeat (LStep (Some id) true) n)) <= n + lf_calls s.
Proof.
  induction n as [|n IH]; intros s id; [cbn; lia|]. rewrite lrun_S.
  pose proof (IH (lstep s (LStep (Some id) true)) id). pose proof (calls_steps s (LStep (Some id) true)) as C.
  specialize (C ltac:(eauto)). lia.
Qed.

Lemma lrun_app : forall a b s, lrun s (a ++ b) = lrun (lrun s a) b.
Proof. intros. unfold lrun. apply foldl_app. Qed.

Lemma returns : forall ops id, Forall op_served ops ->
  let s := lrun life0 ops in
  registered (lrun s (repeat (LStep (Some id) true) 7 ++ repeat (LCall true) (7 + lf_calls s))).
Proof.
  intros ops id F. cbn zeta. pose proof (linv_run ops life0 F linv0) as I. set (s := lrun life0 ops) in *.
  rewrite lrun_app. destruct (rest7 s id I) as [P L].
  assert (linv (lrun s (repeat (LStep (Some id) true) 7))) as I' by (apply linv_run; [apply Forall_forall; intros o Y; apply elem_of_list_In, repeat_spec in Y; subst; done|exact I]).
  destruct I' as (_ & _ & _ & I4). apply calls_run; [exact L| |].
  - apply calls_steps_run.
  - apply I4; [by right|exact L].
Qed.

(** After a failed request for a lease. *)
Definition jammed (s : life) : Prop := lf_pc s = LLock /\ lf_lock s = true.
Lemma jam_step : forall s o, jammed s -> jammed (lstep s o).
Proof.
  intros s o [P L]. destruct o as [g k|ok|id|]; cbn; rewrite ?P, ?L; try done. by destruct (lf_calls s).
Qed.
Lemma jam_run : forall ops s, jammed s -> jammed (lrun s ops).
Proof. induction ops as [|o ops IH]; intros s J; [exact J|]. cbn. apply IH. by apply jam_step. Qed.
Lemma jam_entry : forall ops s l, jammed s -> lf_calls s = 0 -> lf_entry (lrun s ops) = Some l -> lf_entry s = Some l.
Proof.
  induction ops as [|o ops IH]; intros s l J C E; [exact E|]. cbn in E. change (lf_entry (lrun (lstep s o) ops) = Some l) in E.
  apply IH in E; [|by apply jam_step|].
  - destruct J as [P L]. destruct o as [g k|ok|id|]; cbn in E; rewrite ?P, ?L, ?C in E; try done.
    destruct (lf_entry s) as [l'|]; [|done]. by destruct (l' =? id)%N.
  - destruct J as [P L]. destruct o as [g k|ok|id|]; cbn; rewrite ?P, ?L, ?C; done.
Qed.

(** After a put that failed. *)
Lemma idle_run : forall ops s, lf_pc s = LWait -> lf_ctx s = true -> In (lf_lease s) (lf_live s) -> lf_calls s = 0 ->
  Forall (fun o => o <> LExpire (lf_lease s) /\ o <> LClose) ops -> lf_entry s = None -> lf_entry (lrun s ops) = None.
Proof.
  induction ops as [|o ops IH]; intros s P X L C F E; [exact E|]. apply Forall_cons in F as [[N1 N2] F]. cbn.
  change (lf_entry (lrun (lstep s o) ops) = None).
  assert (existsb (N.eqb (lf_lease s)) (lf_live s) = true) as Q by (by apply in_live).
  destruct o as [g k|ok|id|].
  - assert (lstep s (LStep g k) = s) as -> by (cbn; rewrite P, X, Q; done). by apply IH.
  - assert (lstep s (LCall ok) = s) as -> by (cbn; rewrite C; done). by apply IH.
  - apply IH; cbn; auto; [|by rewrite E]. apply in_in_remove; [congruence|done].
  - done.
Qed.

(** ** Roles *)

Lemma step_last : forall s ts t, mb_tasks s = ts ++ [t] ->
  mstep s (MStep (length ts)) = set_tasks (ts ++ [(task_step t s).2]) (task_step t s).1.
Proof.
  intros s ts t E. cbn [mstep]. rewrite E. rewrite list_lookup_middle by done.
  destruct (task_step t s) as [s' t'] eqn:Q. cbn [fst snd]. f_equal.
  rewrite <- (Nat.add_0_r (length ts)), insert_app_r. done.
Qed.
Lemma mrun_cons : forall s o l, mrun s (o :: l) = mrun (mstep s o) l.
Proof. done. Qed.

Lemma known_set : forall l ts s, known l (set_tasks ts s) = known l s.
Proof. done. Qed.

Ltac go := rewrite mrun_cons; erewrite step_last by reflexivity;
  unfold set_tasks, set_role, set_entry; cbn [task_step fst snd set_tasks set_entry set_role mb_role mb_lease mb_live mb_master mb_slave mb_tasks].

Lemma settle_grant : forall s id, mb_role s <> RPlain ->
  settle s (MGrant id) =
  set_entry (mb_role s) (Some id) (mk_member (mb_role s) id (id :: mb_live s) (mb_master s) (mb_slave s) (mb_tasks s ++ [TDone])).
Proof.
  intros [r l lv m sl ts] id NR. cbn [mb_role] in NR. cbn [settle repeat mb_tasks]. rewrite mrun_cons.
  cbn [mstep mb_role mb_live mb_master mb_slave mb_tasks].
  assert (forall r ts, known id (mk_member r id (id :: lv) m sl ts) = true) as K
    by (intros; unfold known; cbn; rewrite N.eqb_refl, orb_true_r; done).
  do 2 go. rewrite mrun_cons; erewrite step_last by reflexivity. cbn [task_step].
  rewrite K.
  destruct r; [done| |]; cbn [fst snd set_tasks set_entry mb_role mb_lease mb_live mb_master mb_slave mb_tasks]; do 3 go; done.
Qed.

Lemma settle_lead : forall s b, mb_role s <> RPlain ->
  settle s (MLeader b) =
  let s1 := set_tasks (mb_tasks s ++ [TDone]) (set_role (role_of b) (set_entry (mb_role s) None s)) in
  if known (mb_lease s) s then set_entry (role_of b) (Some (mb_lease s)) s1 else s1.
Proof.
  intros [r l lv m sl ts] b NR. cbn [mb_role] in NR. cbn [settle repeat mb_tasks]. rewrite mrun_cons.
  cbn [mstep set_tasks mb_role mb_lease mb_live mb_master mb_slave mb_tasks].
  assert (forall r' m' sl' ts', known l (mk_member r' l lv m' sl' ts') = (l =? 0)%N || existsb (N.eqb l) lv) as K by done.
  destruct r; [done| |]; do 5 go; rewrite mrun_cons; erewrite step_last by reflexivity; cbn [task_step]; unfold set_tasks, set_role, set_entry; cbn [mb_role mb_lease mb_live mb_master mb_slave mb_tasks];
    (rewrite !K; destruct ((l =? 0)%N || existsb (N.eqb l) lv); destruct b;
     cbn [role_of fst snd set_tasks set_entry set_role mb_role mb_lease mb_live mb_master mb_slave mb_tasks]; done).
Qed.

(** The invariant of settled histories after the first lease. *)
Definition minv (s : member) : Prop := mb_role s <> RPlain /\ mb_lease s <> 0%N /\ only_under (mb_role s) s.

Lemma minv_settle : forall s o, grants_ok o -> minv s -> minv (settle s o).
Proof.
  intros s o G (R & L & U1 & U2). destruct o as [id|b|i|id].
  - rewrite settle_grant by done. destruct s as [r l lv m sl ts]. cbn in R, L, G. destruct r; [done| |]; cbn in *.
    + repeat split; try done; cbn; [intros [] N; try done; by apply (U1 RSlave)|]. intros l' E. injection E as <-. by left.
    + repeat split; try done; cbn; [intros [] N; try done; by apply (U1 RMaster)|]. intros l' E. injection E as <-. by left.
  - rewrite settle_lead by done. destruct s as [r l lv m sl ts]. cbn in R, L, U2. cbn zeta. cbn [mb_lease].
    destruct (known l (mk_member r l lv m sl ts)) eqn:K.
    + assert (In l lv) as IL. { unfold known in K. cbn in K. apply orb_true_iff in K as [K|K]; [by apply N.eqb_eq in K|by apply in_live]. }
      destruct r; [done| |]; destruct b; cbn in *; repeat split; try done; cbn;
        try (intros l' E; injection E as <-; exact IL); intros [] N; try done; try (by apply (U1 RSlave)); by apply (U1 RMaster).
    + destruct r; [done| |]; destruct b; cbn in *; repeat split; try done; cbn; try (intros l' E; discriminate);
        try (intros [] N; try done; try (by apply (U1 RSlave)); by apply (U1 RMaster)).
      all: intros l' E; first [pose proof (U1 RSlave ltac:(done)) as Y|pose proof (U1 RMaster ltac:(done)) as Y]; cbn in Y; congruence.
  - done.
  - destruct s as [r l lv m sl ts]. cbn in *. destruct r; [done| |]; repeat split; try done; cbn.
    + intros [] N; try done. cbn. pose proof (U1 RSlave ltac:(done)) as Y. cbn in Y. by rewrite Y.
    + intros l' E. unfold expire_entry in E. destruct m as [l''|]; [|done]. destruct (N.eqb_spec l'' id); [done|].
      injection E as <-. apply in_in_remove; [done|]. by apply U2.
    + intros [] N; try done. cbn. pose proof (U1 RMaster ltac:(done)) as Y. cbn in Y. by rewrite Y.
    + intros l' E. unfold expire_entry in E. destruct sl as [l''|]; [|done]. destruct (N.eqb_spec l'' id); [done|].
      injection E as <-. apply in_in_remove; [done|]. by apply U2.
Qed.
Lemma minv_settled : forall ops s, Forall grants_ok ops -> minv s -> minv (settled s ops).
Proof.
  induction ops as [|o ops IH]; intros s F I; [exact I|]. apply Forall_cons in F as [G F]. cbn. apply IH; [done|]. by apply minv_settle.
Qed.

Lemma settle_role : forall s o, mb_role s <> RPlain -> mb_role (settle s o) = last_role (mb_role s) [o].
Proof.
  intros s o R. destruct o as [id|b|i|id].
  - rewrite settle_grant by done. destruct (mb_role s); done.
  - rewrite settle_lead by done. cbn zeta. destruct (known _ _); destruct (mb_role s), b; done.
  - done.
  - done.
Qed.
Lemma last_role_not_plain : forall ops r, r <> RPlain -> last_role r ops <> RPlain.
Proof.
  induction ops as [|o ops IH]; intros r N; [exact N|]. destruct o as [id|b|i|id]; cbn; apply IH; try done. by destruct b.
Qed.
Lemma settled_role : forall ops s, mb_role s <> RPlain -> mb_role (settled s ops) = last_role (mb_role s) ops.
Proof.
  induction ops as [|o ops IH]; intros s R; [done|]. cbn [settled foldl]. change (foldl settle (settle s o) ops) with (settled (settle s o) ops).
  pose proof (settle_role s o R) as E. rewrite IH; [|rewrite E; by apply last_role_not_plain]. rewrite E.
  by destruct o.
Qed.

Lemma minv_first : forall r id, r <> RPlain -> id <> 0%N -> minv (settle (member0 r) (MGrant id)).
Proof.
  intros r id R N. rewrite settle_grant by done. destruct r; [done| |]; repeat split; try done; cbn;
    try (intros [] Y; done); intros l E; injection E as <-; by left.
Qed.

Lemma settled_app : forall a b s, settled s (a ++ b) = settled (settled s a) b.
Proof. intros. unfold settled. apply foldl_app. Qed.

(** An entry without a lease stays as long as only leases end. *)
Lemma forever_run : forall ids s r, mb_entry r s = Some 0%N -> Forall (fun id => id <> 0%N) ids ->
  mb_entry r (mrun s (map MExpire ids)) = Some 0%N.
Proof.
  induction ids as [|id ids IH]; intros s r E F; [exact E|]. apply Forall_cons in F as [N F]. cbn [map]. rewrite mrun_cons.
  apply IH; [|done]. assert (expire_entry id (Some 0%N) = Some 0%N) as X
    by (unfold expire_entry; destruct (N.eqb_spec 0 id); [congruence|done]).
  destruct r; cbn in *; try done; rewrite E; exact X.
Qed.
