(** Lemmas about the measurements. *)
From Verif Require Import Str_Model Str_Proofs Meta_Model Registry_Model Registry_Proofs Mon_Model Mon_Spec.
From stdpp Require Import gmap.
From Coq Require Import Lia.
Local Open Scope list_scope.

Lemma str_eqb_neq : forall a b, str_eqb a b = false <-> a <> b.
Proof. exact neqb_str. Qed.

(** ** Series *)

Lemma last_n_len : forall A n (l : list A), length (last_n n l) = Nat.min n (length l).
Proof. intros A n l. unfold last_n. rewrite drop_length. lia. Qed.

Lemma last_n_append : forall A (l : list A) x, append_one (last_n 59 l) x = last_n 59 (l ++ [x]).
Proof.
  intros A l x. unfold append_one, max_stat. rewrite last_n_len. unfold last_n. rewrite app_length. cbn [length].
  destruct (Nat.min 59 (length l) =? 59) eqn:E.
  - apply Nat.eqb_eq in E. rewrite drop_app_le by lia. f_equal.
    replace (length l + 1 - 59) with (length l - 59 + 1) by lia. rewrite <- drop_drop.
    destruct (drop (length l - 59) l); reflexivity.
  - apply Nat.eqb_neq in E. replace (length l - 59) with 0 by lia. replace (length l + 1 - 59) with 0 by lia. rewrite !drop_0. reflexivity.
Qed.

Lemma reports_app : forall dec a b, reports dec (a ++ b) = reports dec a ++ reports dec b.
Proof. intros dec a b. unfold reports. apply omap_app. Qed.

Lemma shown_snoc : forall dec vs v, shown dec (vs ++ [v]) =
  match dec v with Report c u a => tl_append (shown dec vs) c (mem_percent u a) | _ => shown dec vs end.
Proof.
  intros dec vs v. unfold shown. rewrite reports_app. unfold reports at 2 4. cbn [omap list_omap].
  destruct (dec v) as [| |c u a]; cbn [app]; rewrite ?app_nil_r; try reflexivity.
  unfold tl_append. cbn [tl_cpu tl_mem]. rewrite !last_n_append, !map_app. reflexivity.
Qed.

Lemma shown_nil : forall dec, shown dec [] = tline_new.
Proof. reflexivity. Qed.

(** ** One report *)

Lemma kept_insert : forall db serv M i, kept (<[serv := M]> db) serv i = default tline_new (M !! i).
Proof. intros db serv M i. unfold kept. rewrite lookup_insert. reflexivity. Qed.
Lemma kept_other : forall db serv M serv' i, serv' <> serv -> kept (<[serv := M]> db) serv' i = kept db serv' i.
Proof. intros db serv M serv' i N. unfold kept. rewrite lookup_insert_ne by congruence. reflexivity. Qed.
Lemma kept_default : forall db serv i, default tline_new ((default ∅ (db !! serv) : gmap str tline) !! i) = kept db serv i.
Proof. intros db serv i. unfold kept. destruct (db !! serv); cbn; [reflexivity|rewrite lookup_empty; reflexivity]. Qed.

Lemma add_kept : forall dec db serv key v serv' id',
  kept (fst (add_stat dec db serv key v)) serv' id' =
  if str_eqb serv' serv && str_eqb id' (stat_id key)
  then match dec v with Report c u a => tl_append (kept db serv' id') c (mem_percent u a) | _ => kept db serv' id' end
  else kept db serv' id'.
Proof.
  intros dec db serv key v serv' id'. unfold add_stat. rewrite kept_default.
  destruct (str_eqb serv' serv) eqn:ES; cbn [andb].
  - apply str_eqb_eq in ES. subst serv'. destruct (str_eqb id' (stat_id key)) eqn:EI.
    + apply str_eqb_eq in EI. subst id'. destruct (dec v); cbn [fst]; rewrite kept_insert; [apply kept_default| |];
        rewrite lookup_insert; reflexivity.
    + apply str_eqb_neq in EI. destruct (dec v); cbn [fst]; rewrite kept_insert; [apply kept_default| |];
        rewrite lookup_insert_ne by congruence; apply kept_default.
  - apply str_eqb_neq in ES. destruct (dec v); cbn [fst]; apply kept_other; exact ES.
Qed.

(** ** Following etcd *)

Lemma puts_nil : forall k i log, puts k i i log = [].
Proof. intros k i log. unfold puts. rewrite Nat.sub_diag. reflexivity. Qed.

Lemma puts_S : forall k w i log e, w <= i -> log !! i = Some e ->
  puts k w (S i) log = puts k w i log ++ match e with EPut k' v => if str_eqb k' k then [v] else [] | EDel _ => [] end.
Proof.
  intros k w i log e L E. unfold puts. replace (S i - w) with (S (i - w)) by lia.
  rewrite (take_S_r _ _ e); [|rewrite lookup_drop; replace (w + (i - w)) with i by lia; exact E].
  rewrite omap_app. f_equal. cbn [omap list_omap]. destruct e as [k' v|k']; [destruct (str_eqb k' k); reflexivity|reflexivity].
Qed.

Lemma puts_grow : forall k w i log e, i <= length log -> w <= i -> puts k w i (log ++ [e]) = puts k w i log.
Proof.
  intros k w i log e L W. unfold puts. f_equal. rewrite drop_app_le by lia. apply take_app_le. rewrite drop_length. lia.
Qed.

Lemma values_grow : forall k f w i log e, f <= length log -> i <= length log -> w <= i -> values k f w i (log ++ [e]) = values k f w i log.
Proof. intros k f w i log e F L W. unfold values. rewrite puts_grow by assumption. rewrite take_app_le by assumption. reflexivity. Qed.

Definition entry (k : str) (f : nat) (log : list event) : list str :=
  match etcd_at (take f log) !! k with Some v => [v] | None => [] end.

Definition minv (dec : str -> record) (group serv k : str) (m : mon) : Prop :=
  mo_alive m = true ->
  match mo_phase m serv with
  | MStart => kept (mo_db m) serv (stat_id k) = tline_new
  | MLoading f todo =>
      f <= length (mo_log m) /\ NoDup todo.*1 /\
      (forall k' v, (k', v) ∈ todo -> prefixb (fmt_system group serv) k' = true /\ etcd_at (take f (mo_log m)) !! k' = Some v) /\
      kept (mo_db m) serv (stat_id k) =
        shown dec (if bool_decide (k ∈ todo.*1) then [] else entry k f (mo_log m))
  | MWatching f w i | MClosed f w i =>
      f <= w /\ w <= i /\ i <= length (mo_log m) /\ kept (mo_db m) serv (stat_id k) = shown dec (values k f w i (mo_log m))
  end.

Lemma set_phase_same : forall f s p, set_phase f s p s = p.
Proof. intros f s p. unfold set_phase. rewrite str_eqb_refl. reflexivity. Qed.
Lemma set_phase_other : forall f s p s', s' <> s -> set_phase f s p s' = f s'.
Proof. intros f s p s' N. unfold set_phase. apply str_eqb_neq in N. rewrite N. reflexivity. Qed.

Lemma etcd_key : forall log k v, etcd_at log !! k = Some v -> exists e, e ∈ log /\ event_key e = k.
Proof.
  intros log. induction log as [|e log IH] using rev_ind; intros k v H.
  - unfold etcd_at in H. cbn in H. rewrite lookup_empty in H. discriminate H.
  - rewrite etcd_snoc in H. destruct (decide (event_key e = k)) as [E|E].
    + exists e. split; [apply elem_of_app; right; apply elem_of_list_singleton; reflexivity|exact E].
    + assert (etcd_at log !! k = Some v) as Q.
      { destruct e as [k' v'|k']; cbn in *; [rewrite lookup_insert_ne in H by exact E|rewrite lookup_delete_ne in H by exact E]; exact H. }
      destruct (IH k v Q) as (e' & I & K). exists e'. split; [apply elem_of_app; left; exact I|exact K].
Qed.

Lemma alone_grow : forall p k log e, alone p k (log ++ [e]) -> alone p k log.
Proof. intros p k log e A x I. apply A. apply elem_of_app. left. exact I. Qed.
Lemma alone_take : forall p k f log, alone p k log -> alone p k (take f log).
Proof. intros p k f log A x I. apply A. rewrite <- (take_drop f log). apply elem_of_app. left. exact I. Qed.

Lemma minv_step : forall dec group serv k m o, prefixb (fmt_system group serv) k = true ->
  alone (fmt_system group serv) k (mo_log (mon_step dec group m o)) ->
  minv dec group serv k m -> minv dec group serv k (mon_step dec group m o).
Proof.
  intros dec group serv k m o PK AL I. unfold mon_step in *. destruct (mo_alive m) eqn:AV; [|exact I].
  unfold minv in I. specialize (I AV).
  assert (forall s' p ph, s' <> serv -> set_phase ph s' p serv = ph serv) as OTH by (intros; apply set_phase_other; congruence).
  destruct o as [e|s|s|s|s|s|s].
  - (* MChange *)
    intros _. cbn [mo_phase mo_db mo_log]. apply alone_grow in AL. destruct (mo_phase m serv) as [|f todo|f w i|f w i].
    + exact I.
    + destruct I as (F & ND & T & K). rewrite app_length. cbn [length]. unfold entry in *. rewrite take_app_le by exact F. split; [lia|]. split; [exact ND|]. split; [exact T|exact K].
    + destruct I as (FW & WI & L & K). rewrite app_length. rewrite values_grow by lia. repeat split; [exact FW|exact WI|lia|exact K].
    + destruct I as (FW & WI & L & K). rewrite app_length. rewrite values_grow by lia. repeat split; [exact FW|exact WI|lia|exact K].
  - (* MFetch *)
    destruct (mo_phase m s) as [|f todo|f w i|f w i] eqn:PS; try (intros _; exact I).
    intros _. cbn [mo_phase mo_db mo_log]. destruct (decide (s = serv)) as [->|N]; [|rewrite OTH by exact N; exact I].
    rewrite set_phase_same. rewrite PS in I. split; [lia|]. split; [apply NoDup_fst_map_to_list|].
    rewrite take_ge by lia. split.
    + intros k' v E. apply elem_of_map_to_list in E. apply map_filter_lookup_Some in E as [E P]. split; [exact P|exact E].
    + rewrite I. unfold entry. rewrite take_ge by lia. case_bool_decide as B; [reflexivity|].
      destruct (etcd_at (mo_log m) !! k) as [v|] eqn:E; [|reflexivity]. exfalso. apply B. apply elem_of_list_fmap. exists (k, v). split; [reflexivity|].
      apply elem_of_map_to_list. apply map_filter_lookup_Some. split; [exact E|exact PK].
  - (* MFetchFail *)
    destruct (mo_phase m s); intros D; try exact I; discriminate D.
  - (* MAdd *)
    destruct (mo_phase m s) as [|f [|[k0 v0] todo]|f w i|f w i] eqn:PS; try (intros _; exact I).
    intros AV'. cbn [after_add mo_phase mo_db mo_log mo_alive] in *.
    destruct (decide (s = serv)) as [->|N].
    + rewrite set_phase_same. rewrite PS in I. destruct I as (F & ND & T & K). cbn [fmap list_fmap fst] in ND. apply NoDup_cons in ND as [NI ND].
      destruct (T k0 v0) as [P0 E0]; [apply elem_of_cons; left; reflexivity|].
      split; [exact F|]. split; [exact ND|]. split; [intros k' v' E'; apply T; apply elem_of_cons; right; exact E'|].
      rewrite add_kept, str_eqb_refl. cbn [andb].
      destruct (str_eqb (stat_id k) (stat_id k0)) eqn:EI.
      * apply str_eqb_eq in EI. assert (k0 = k) as ->.
        { destruct (etcd_key _ _ _ E0) as (e & Ie & Ek). rewrite <- Ek. apply (alone_take _ _ f _ AL); [exact Ie|congruence|congruence]. }
        rewrite K. rewrite bool_decide_true by (cbn; apply elem_of_cons; left; reflexivity).
        rewrite bool_decide_false by exact NI. unfold entry. rewrite E0.
        change [v0] with ([] ++ [v0]). rewrite shown_snoc. destruct (dec v0); reflexivity.
      * rewrite K. apply str_eqb_neq in EI. assert (k <> k0) as NK by congruence.
        assert (bool_decide (k ∈ ((k0, v0) :: todo).*1) = bool_decide (k ∈ todo.*1)) as ->; [|reflexivity].
        apply bool_decide_ext. cbn [fmap list_fmap fst]. rewrite elem_of_cons. tauto.
    + rewrite OTH by exact N. rewrite !add_kept. apply not_eq_sym, str_eqb_neq in N. rewrite N. cbn [andb]. exact I.
  - (* MWatch *)
    destruct (mo_phase m s) as [|f [|[k0 v0] todo]|f w i|f w i] eqn:PS; try (intros _; exact I).
    intros _. cbn [mo_phase mo_db mo_log]. destruct (decide (s = serv)) as [->|N]; [|rewrite OTH by exact N; exact I].
    rewrite set_phase_same. rewrite PS in I. destruct I as (F & _ & _ & K). repeat split; [exact F|lia|lia|].
    rewrite K. rewrite bool_decide_false by apply not_elem_of_nil. unfold values. rewrite puts_nil, app_nil_r. reflexivity.
  - (* MDeliver *)
    destruct (mo_phase m s) as [|f todo|f w i|f w i] eqn:PS; try (intros _; exact I).
    destruct (mo_log m !! i) as [e|] eqn:LI; [|intros _; exact I]. pose proof (lookup_lt_Some _ _ _ LI) as LT.
    destruct (decide (s = serv)) as [->|N].
    + rewrite PS in I. destruct I as (FW & WI & L & K).
      assert (forall db, kept db serv (stat_id k) = shown dec (values k f w (S i) (mo_log m)) -> forall b,
        minv dec group serv k (mk_mon (mo_log m) db (set_phase (mo_phase m) serv (MWatching f w (S i))) b)) as GO.
      { intros db Q b _. cbn [mo_phase mo_db mo_log]. rewrite set_phase_same. repeat split; [exact FW|lia|lia|exact Q]. }
      destruct e as [k0 v0|k0].
      * destruct (prefixb (fmt_system group serv) k0) eqn:P0.
        -- apply GO. rewrite add_kept, str_eqb_refl. cbn [andb]. unfold values. rewrite (puts_S k w i (mo_log m) (EPut k0 v0)) by assumption.
           rewrite app_assoc. fold (values k f w i (mo_log m)).
           destruct (str_eqb (stat_id k) (stat_id k0)) eqn:EI.
           ++ apply str_eqb_eq in EI. assert (k0 = k) as ->.
              { apply (AL (EPut k0 v0)); [|exact P0|symmetry; exact EI]. cbn. eapply elem_of_list_lookup_2, LI. }
              rewrite str_eqb_refl, shown_snoc, K. reflexivity.
           ++ apply str_eqb_neq in EI. assert (str_eqb k0 k = false) as -> by (apply str_eqb_neq; congruence). rewrite app_nil_r. exact K.
        -- apply GO. unfold values. rewrite (puts_S k w i (mo_log m) (EPut k0 v0)) by assumption.
           assert (str_eqb k0 k = false) as -> by (apply str_eqb_neq; congruence). rewrite app_nil_r. exact K.
      * apply GO. unfold values. rewrite (puts_S k w i (mo_log m) (EDel k0)) by assumption. rewrite app_nil_r. exact K.
    + assert (forall db, kept db serv (stat_id k) = kept (mo_db m) serv (stat_id k) -> forall p b,
        minv dec group serv k (mk_mon (mo_log m) db (set_phase (mo_phase m) s p) b)) as GO.
      { intros db Q p b _. cbn [mo_phase mo_db mo_log]. rewrite OTH by exact N. rewrite Q. exact I. }
      destruct e as [k0 v0|k0]; [|apply GO; reflexivity]. destruct (prefixb (fmt_system group s) k0); [|apply GO; reflexivity].
      apply GO. rewrite add_kept. apply not_eq_sym, str_eqb_neq in N. rewrite N. reflexivity.
  - (* MClose *)
    destruct (mo_phase m s) as [|f todo|f w i|f w i] eqn:PS; try (intros _; exact I).
    intros _. cbn [mo_phase mo_db mo_log]. destruct (decide (s = serv)) as [->|N]; [|rewrite OTH by exact N; exact I].
    rewrite set_phase_same. rewrite PS in I. exact I.
Qed.

Lemma mon_log_grows : forall dec group o m, exists l, mo_log (mon_step dec group m o) = mo_log m ++ l.
Proof.
  intros dec group o m. unfold mon_step. destruct (mo_alive m); [|exists []; rewrite app_nil_r; reflexivity].
  destruct o as [e|s|s|s|s|s|s]; [exists [e]; reflexivity|..]; exists []; rewrite app_nil_r.
  all: destruct (mo_phase m s) as [|f [|[k0 v0] todo]|f w i|f w i]; try reflexivity.
  destruct (mo_log m !! i) as [[k v|k]|]; try reflexivity. destruct (prefixb _ _); reflexivity.
Qed.

Lemma mon_log_run : forall dec group ops m, exists l, mo_log (mon_run dec group m ops) = mo_log m ++ l.
Proof.
  intros dec group. induction ops as [|o ops IH]; intros m; [exists []; rewrite app_nil_r; reflexivity|]. cbn.
  destruct (IH (mon_step dec group m o)) as [l2 E2]. destruct (mon_log_grows dec group o m) as [l1 E1].
  exists (l1 ++ l2). unfold mon_run in E2. rewrite E2, E1, app_assoc. reflexivity.
Qed.

Lemma alone_app : forall p k a b, alone p k (a ++ b) -> alone p k a.
Proof. intros p k a b A x I. apply A. apply elem_of_app. left. exact I. Qed.

Lemma minv_run : forall dec group serv k ops m, prefixb (fmt_system group serv) k = true ->
  alone (fmt_system group serv) k (mo_log (mon_run dec group m ops)) ->
  minv dec group serv k m -> minv dec group serv k (mon_run dec group m ops).
Proof.
  intros dec group serv k. induction ops as [|o ops IH]; intros m PK AL I; [exact I|].
  change (mon_run dec group m (o :: ops)) with (mon_run dec group (mon_step dec group m o) ops) in *.
  apply IH; [exact PK|exact AL|]. apply minv_step; [exact PK| |exact I].
  destruct (mon_log_run dec group ops (mon_step dec group m o)) as [l E]. rewrite E in AL. eapply alone_app, AL.
Qed.

Lemma minv_start : forall dec group serv k log, minv dec group serv k (mon_start log).
Proof. intros dec group serv k log _. cbn. unfold kept. rewrite lookup_empty. reflexivity. Qed.

(** ** The life of the server *)

Lemma dead_stays : forall dec group ops m, mo_alive m = false -> mon_run dec group m ops = m.
Proof.
  intros dec group. induction ops as [|o ops IH]; intros m D; [reflexivity|].
  change (mon_run dec group m (o :: ops)) with (mon_run dec group (mon_step dec group m o) ops).
  assert (mon_step dec group m o = m) as -> by (unfold mon_step; rewrite D; reflexivity). apply IH, D.
Qed.

Definition complete (dec : str -> record) (e : event) : Prop := match e with EPut _ v => dec v <> Incomplete | EDel _ => True end.

Definition no_nil (dec : str -> record) (m : mon) : Prop :=
  mo_alive m = true /\ Forall (complete dec) (mo_log m) /\
  forall s f todo, mo_phase m s = MLoading f todo -> Forall (fun kv => dec kv.2 <> Incomplete) todo.

Lemma etcd_complete : forall dec log, Forall (complete dec) log -> forall k v, etcd_at log !! k = Some v -> dec v <> Incomplete.
Proof.
  intros dec log. induction log as [|e log IH] using rev_ind; intros F k v H.
  - unfold etcd_at in H. cbn in H. rewrite lookup_empty in H. discriminate H.
  - apply Forall_app in F as [F1 F2]. apply Forall_inv in F2. rewrite etcd_snoc in H. destruct e as [k' v'|k']; cbn in *.
    + destruct (decide (k' = k)) as [->|N].
      * rewrite lookup_insert in H. injection H as <-. exact F2.
      * rewrite lookup_insert_ne in H by exact N. eapply IH; eassumption.
    + destruct (decide (k' = k)) as [->|N]; [rewrite lookup_delete in H; discriminate H|].
      rewrite lookup_delete_ne in H by exact N. eapply IH; eassumption.
Qed.

Lemma add_no_panic : forall dec db s k v, dec v <> Incomplete -> snd (add_stat dec db s k v) <> APanic.
Proof. intros dec db s k v H. unfold add_stat. destruct (dec v); cbn; congruence. Qed.

Lemma no_nil_step : forall dec group m o, (forall s, o <> MFetchFail s) -> (forall e, o = MChange e -> complete dec e) ->
  no_nil dec m -> no_nil dec (mon_step dec group m o).
Proof.
  intros dec group m o NF CH (AV & LG & LD). unfold mon_step. rewrite AV.
  assert (forall s p f todo, set_phase (mo_phase m) s p = set_phase (mo_phase m) s p ->
    (forall f' todo', p = MLoading f' todo' -> Forall (fun kv => dec kv.2 <> Incomplete) todo') ->
    forall s', set_phase (mo_phase m) s p s' = MLoading f todo -> Forall (fun kv => dec kv.2 <> Incomplete) todo) as SP.
  { intros s p f todo _ HP s' E. destruct (decide (s' = s)) as [->|N].
    - rewrite set_phase_same in E. eapply HP, E.
    - rewrite set_phase_other in E by exact N. eapply LD, E. }
  assert (no_nil dec m) as SELF by (split; [exact AV|split; [exact LG|exact LD]]).
  destruct o as [e|s|s|s|s|s|s].
  - split; [reflexivity|]. split; [|exact LD]. cbn [mo_log]. apply Forall_app. split; [exact LG|]. apply Forall_cons. split; [apply CH; reflexivity|constructor].
  - destruct (mo_phase m s) eqn:PS; try exact SELF. split; [reflexivity|]. split; [exact LG|]. cbn [mo_phase]. intros s' f todo E.
    eapply (SP s); [reflexivity| |exact E]. intros f' todo' Q. injection Q as <- <-. apply Forall_forall. intros [k v] I.
    apply elem_of_map_to_list in I. apply map_filter_lookup_Some in I as [I _]. cbn. eapply etcd_complete; eassumption.
  - exfalso. exact (NF s eq_refl).
  - destruct (mo_phase m s) as [|f [|[k0 v0] todo]|f w i|f w i] eqn:PS; try exact SELF.
    pose proof (LD s f _ PS) as FT. apply Forall_cons in FT as [H0 FT]. cbn in H0.
    split.
    + cbn. pose proof (add_no_panic dec (mo_db m) s k0 v0 H0) as NP. destruct (snd (add_stat dec (mo_db m) s k0 v0)); congruence.
    + split; [exact LG|]. cbn [after_add mo_phase]. intros s' f1 todo1 E. eapply (SP s); [reflexivity| |exact E]. intros f' todo' Q. injection Q as <- <-. exact FT.
  - destruct (mo_phase m s) as [|f [|[k0 v0] todo]|f w i|f w i] eqn:PS; try exact SELF.
    split; [reflexivity|]. split; [exact LG|]. cbn [mo_phase]. intros s' f1 todo1 E. eapply (SP s); [reflexivity| |exact E]. discriminate.
  - destruct (mo_phase m s) as [|f todo|f w i|f w i] eqn:PS; try exact SELF.
    destruct (mo_log m !! i) as [[k v|k]|] eqn:LI; [| |exact SELF].
    + assert (dec v <> Incomplete) as H0.
      { pose proof (proj1 (Forall_lookup _ _) LG i _ LI) as Q. exact Q. }
      destruct (prefixb _ k).
      * split.
        -- cbn. pose proof (add_no_panic dec (mo_db m) s k v H0) as NP. destruct (snd (add_stat dec (mo_db m) s k v)); congruence.
        -- split; [exact LG|]. cbn [after_add mo_phase]. intros s' f1 todo1 E. eapply (SP s); [reflexivity| |exact E]. discriminate.
      * split; [reflexivity|]. split; [exact LG|]. cbn [mo_phase]. intros s' f1 todo1 E. eapply (SP s); [reflexivity| |exact E]. discriminate.
    + split; [reflexivity|]. split; [exact LG|]. cbn [mo_phase]. intros s' f1 todo1 E. eapply (SP s); [reflexivity| |exact E]. discriminate.
  - destruct (mo_phase m s) as [|f todo|f w i|f w i] eqn:PS; try exact SELF.
    split; [reflexivity|]. split; [exact LG|]. cbn [mo_phase]. intros s' f1 todo1 E. eapply (SP s); [reflexivity| |exact E]. discriminate.
Qed.

Lemma no_nil_run : forall dec group ops m, (forall s, MFetchFail s ∉ ops) -> (forall e, MChange e ∈ ops -> complete dec e) ->
  no_nil dec m -> no_nil dec (mon_run dec group m ops).
Proof.
  intros dec group. induction ops as [|o ops IH]; intros m NF CH I; [exact I|].
  change (mon_run dec group m (o :: ops)) with (mon_run dec group (mon_step dec group m o) ops). apply IH.
  - intros s Q. apply (NF s). apply elem_of_cons. right. exact Q.
  - intros e Q. apply CH. apply elem_of_cons. right. exact Q.
  - apply no_nil_step; [| |exact I].
    + intros s ->. apply (NF s). apply elem_of_cons. left. reflexivity.
    + intros e ->. apply CH. apply elem_of_cons. left. reflexivity.
Qed.

(** ** Pages *)

Lemma overview_last : forall l x, overview (l ++ [x]) = Some (snd x).
Proof. intros l x. unfold overview. rewrite fold_left_app. reflexivity. Qed.

Lemma append_bound : forall A (l : list A) x, length l <= 59 -> length (append_one l x) <= 59.
Proof.
  intros A l x L. unfold append_one, max_stat. destruct (length l =? 59) eqn:E; rewrite app_length; cbn [length].
  - apply Nat.eqb_eq in E. destruct l; cbn in *; lia.
  - apply Nat.eqb_neq in E. lia.
Qed.

Definition bounded (db : stats) : Prop := forall s i, length (tl_cpu (kept db s i)) <= 59 /\ length (tl_mem (kept db s i)) <= 59.

Lemma bounded_add : forall dec db s k v, bounded db -> bounded (fst (add_stat dec db s k v)).
Proof.
  intros dec db s k v B s' i. rewrite add_kept. destruct (B s' i) as [B1 B2]. destruct (_ && _); [|split; assumption].
  destruct (dec v); try (split; assumption). cbn. split; apply append_bound; assumption.
Qed.

Lemma bounded_step : forall dec group m o, bounded (mo_db m) -> bounded (mo_db (mon_step dec group m o)).
Proof.
  intros dec group m o B. unfold mon_step. destruct (mo_alive m); [|exact B].
  destruct o as [e|s|s|s|s|s|s]; try exact B.
  all: destruct (mo_phase m s) as [|f [|[k0 v0] todo]|f w i|f w i]; try exact B; cbn [mo_db after_add]; try (apply bounded_add; exact B).
  destruct (mo_log m !! i) as [[k v|k]|]; try exact B. destruct (prefixb _ _); [apply bounded_add|]; exact B.
Qed.

Lemma bounded_run : forall dec group ops m, bounded (mo_db m) -> bounded (mo_db (mon_run dec group m ops)).
Proof.
  intros dec group. induction ops as [|o ops IH]; intros m B; [exact B|].
  change (mon_run dec group m (o :: ops)) with (mon_run dec group (mon_step dec group m o) ops). apply IH, bounded_step, B.
Qed.

Lemma series_exact : forall dec group serv k log ops f w i, let m := mon_run dec group (mon_start log) ops in
  prefixb (fmt_system group serv) k = true -> alone (fmt_system group serv) k (mo_log m) -> mo_alive m = true ->
  mo_phase m serv = MWatching f w i \/ mo_phase m serv = MClosed f w i ->
  kept (mo_db m) serv (stat_id k) = shown dec (values k f w i (mo_log m)) /\ f <= w /\ w <= i /\ i <= length (mo_log m).
Proof.
  intros dec group serv k log ops f w i m PK AL AV PH.
  pose proof (minv_run dec group serv k ops (mon_start log) PK AL (minv_start _ _ _ _ _) AV) as I. fold m in I.
  destruct PH as [P|P]; rewrite P in I; destruct I as (A & B & C & D); repeat split; assumption.
Qed.

Lemma sys_info_app : forall dec kvs acc r, sys_info dec kvs acc = Some r ->
  Forall (fun kv => dec kv.2 <> Garbled) kvs /\
  (forall i, (forall kv, kv ∈ kvs -> stat_id kv.1 <> i) -> r !! i = acc !! i) /\
  (NoDup (map (fun kv : str * str => stat_id kv.1) kvs) -> forall kv, kv ∈ kvs -> r !! stat_id kv.1 = Some (dec kv.2)).
Proof.
  intros dec kvs. induction kvs as [|[k v] kvs IH]; intros acc r H.
  - injection H as <-. split; [constructor|]. split; [reflexivity|]. intros _ kv I. apply elem_of_nil in I. destruct I.
  - assert (dec v <> Garbled /\ sys_info dec kvs (<[stat_id k := dec v]> acc) = Some r) as [NG H'].
    { cbn in H. destruct (dec v); [discriminate H|..]; split; (congruence || exact H). }
    destruct (IH _ _ H') as (F & O & S0). split; [constructor; [exact NG|exact F]|]. split.
    + intros i NI. rewrite O.
      * apply lookup_insert_ne. apply (NI (k, v)). apply elem_of_cons. left. reflexivity.
      * intros kv I. apply NI. apply elem_of_cons. right. exact I.
    + intros ND kv I. cbn [map] in ND. apply NoDup_cons in ND as [NI ND]. apply elem_of_cons in I as [->|I]; [|apply S0; assumption].
      cbn. rewrite O; [apply lookup_insert|]. intros kv I Q. apply NI. cbn. rewrite <- Q. apply elem_of_list_fmap. exists kv. split; [reflexivity|exact I].
Qed.

Lemma sys_info_none : forall dec kvs acc, sys_info dec kvs acc = None <-> Exists (fun kv => dec kv.2 = Garbled) kvs.
Proof.
  intros dec kvs. induction kvs as [|[k v] kvs IH]; intros acc.
  - split; [discriminate|]. intros E. inversion E.
  - cbn. split.
    + intros H. destruct (dec v) eqn:D; [constructor; exact D|..]; apply Exists_cons; right; eapply IH, H.
    + intros E. apply Exists_cons in E as [E|E]; [cbn in E; rewrite E; reflexivity|].
      destruct (dec v); [reflexivity|..]; apply IH, E.
Qed.

Lemma percent_ceil : forall used all p, mem_percent used all = Some p -> (100 * used <= p * all /\ p * all < 100 * used + all)%N.
Proof.
  intros used all p H. unfold mem_percent in H. destruct (all =? 0)%N eqn:E; [discriminate H|]. apply N.eqb_neq in E. injection H as <-.
  pose proof (N.div_mod (used * 100 + (all - 1)) all E) as D. pose proof (N.mod_lt (used * 100 + (all - 1)) all E) as M.
  set (q := ((used * 100 + (all - 1)) / all)%N) in *. set (r := ((used * 100 + (all - 1)) mod all)%N) in *. rewrite (N.mul_comm q all). set (t := (all * q)%N) in *. lia.
Qed.
