(** Properties of the measurements an API server keeps (C104-C110). *)
From Verif Require Import Str_Model Str_Proofs Util_Model Codec_Model Perf_Model Perf_Spec Perf_Proofs.
From Coq Require Import Permutation Sorting.
Local Open Scope Z_scope.
Local Open Scope list_scope.

(** * C104: the collector *)

(** Every call of [PutAsync] has run or is waiting. *)
Theorem C104_calls : forall es, Permutation (ran es ++ waiting es) (calls es).
Proof. exact ran_waiting. Qed.
Print Assumptions C104_calls.

(** A collector that flushes when full has each measurement in the store or in memory,
    once, in the order they ran, whatever the store refuses. *)
Theorem C104_flush : forall cf es, pc_flush cf = true ->
  let c := crun cf es coll_new in cl_saved c ++ cl_mem c = ran es.
Proof. exact flush_keeps. Qed.
Print Assumptions C104_flush.

(** A collector that drops when full has the latest measurements in memory, at most
    [MaxInMemory]; none is lost before there are more than that. *)
Theorem C104_window : forall cf es, pc_flush cf = false ->
  let c := crun cf es coll_new in
  (List.length (cl_mem c) <= pc_max cf)%nat /\ exists before, ran es = before ++ cl_mem c /\
    exists lost, Permutation before (cl_saved c ++ lost) /\ ((List.length (ran es) <= pc_max cf)%nat -> lost = []).
Proof. exact window. Qed.
Print Assumptions C104_window.

(** A store that refuses nothing: memory within its bound. *)
Theorem C104_bounded : forall cf es, Forall obliging es -> (List.length (cl_mem (crun cf es coll_new)) <= pc_max cf)%nat.
Proof. exact bounded. Qed.
Print Assumptions C104_bounded.

Definition m1 : perf := mk_perf (s2l "http"%string) (s2l "read"%string) 5.
Definition m2 : perf := mk_perf (s2l "grpc"%string) (s2l "read"%string) 6.
Definition m3 : perf := mk_perf (s2l "http"%string) (s2l "write"%string) 7.
Definition some_events : list cev := [EAsync m1; EAsync m2; ERun 1 true; EAsync m3; ERun 1 false; ETick true false; ERun 0 true].

Example C104_flush_case : crun (mk_pconf 1 true) some_events coll_new = mk_coll [] [m2; m3; m1] [] /\ ran some_events = [m2; m3; m1].
Proof. vm_compute. auto. Qed.
Example C104_window_case : crun (mk_pconf 2 false) (some_events ++ [ETick true true]) coll_new = mk_coll [] [m3; m1] [].
Proof. vm_compute. reflexivity. Qed.
Example C104_bounded_case : Forall obliging [EAsync m1; EAsync m2; ERun 1 true; ERun 0 true; EAsync m3; ETick false true] /\
  crun (mk_pconf 1 true) [EAsync m1; EAsync m2; ERun 1 true; ERun 0 true; EAsync m3; ETick false true] coll_new = mk_coll [] [m2; m1] [m3].
Proof. split; [repeat constructor|vm_compute; reflexivity]. Qed.

(** * C105: closing, and the bound of memory *)

(** What is asked: after a successful [Close] every measurement is saved; memory never
    holds more than [MaxInMemory]. *)
Definition saved_on_close : Prop := forall cf es, pc_flush cf = true ->
  Permutation (cl_saved (crun cf (es ++ [EClose true]) coll_new)) (calls es).
Definition within_bound : Prop := forall cf es, (List.length (cl_mem (crun cf es coll_new)) <= pc_max cf)%nat.

(** A measurement whose goroutine has not run when the collector is closed is lost. *)
Theorem C105_close_refuted : ~ saved_on_close.
Proof.
  intros H. specialize (H (mk_pconf 10 true) [EAsync m1] eq_refl). vm_compute in H. apply Permutation_length in H. discriminate H.
Qed.
Print Assumptions C105_close_refuted.

(** It holds when none is waiting. *)
(** Partial.  Full statement: After a successful Close every measurement handed over is in the
    store; memory never holds more than MaxInMemory measurements.  It fails in general:
    [C105_close_refuted], [C105_bound_refuted], [C105_within_refuted].  Refuted: a measurement whose
    goroutine has not run when the collector is closed is lost; while the store refuses, memory
    grows beyond every bound. *)
Theorem C105_close_partial : forall cf es, pc_flush cf = true -> waiting es = [] ->
  let c := crun cf (es ++ [EClose true]) coll_new in
  Permutation (cl_saved c) (calls es) /\ cl_mem c = [].
Proof.
  intros cf es F W. cbv zeta. rewrite crun_snoc. cbn [cstep flush cl_saved cl_mem]. split; [|reflexivity].
  rewrite (flush_keeps cf es F). rewrite <- ran_waiting, W, app_nil_r. reflexivity.
Qed.
Print Assumptions C105_close_partial.

(** With a store that refuses, memory grows beyond every bound. *)
Theorem C105_bound_refuted : forall cf, pc_flush cf = true -> forall n, exists es, List.length (cl_mem (crun cf es coll_new)) = n.
Proof. intros cf F n. exists (refused n m1). apply (refused_grows cf n m1 F). Qed.
Print Assumptions C105_bound_refuted.

Theorem C105_within_refuted : ~ within_bound.
Proof.
  intros H. destruct (C105_bound_refuted (mk_pconf 3 true) eq_refl 4) as (es & E). specialize (H (mk_pconf 3 true) es). rewrite E in H. cbn in H. lia.
Qed.
Print Assumptions C105_within_refuted.

Example C105_case : waiting [EAsync m1; EAsync m2; ERun 1 true; ERun 0 false] = [] /\
  cl_saved (crun (mk_pconf 1 true) ([EAsync m1; EAsync m2; ERun 1 true; ERun 0 false] ++ [EClose true]) coll_new) = [m2; m1].
Proof. vm_compute. auto. Qed.

(** * C106: the local store returns and counts what was put *)

(** What is asked: [Get] gives the stored measurements of the kind and action. *)
Definition get_exact : Prop := forall ops kind action l, Forall (lawful own_kinds own_actions) ops ->
  ls_get (ls_run ops) kind action = Some l -> Permutation l (filter (matchb kind action) (sp_run ops)).

Lemma own_good : good_names own_kinds own_actions.
Proof.
  assert (D : forall l : list str, forallb (fun a => negb (str_eqb a []) && negb (existsb (fun c => if ascii_dec c "."%char then true else false) a)) l = true -> Forall plain l).
  { intros l H. rewrite forallb_forall in H. rewrite Forall_forall. intros a I. specialize (H a I). apply andb_true_iff in H as [H1 H2].
    split; [destruct (str_eqb_spec a []); [discriminate|assumption]|]. intros J. apply negb_true_iff, Bool.not_true_iff_false in H2. apply H2.
    apply existsb_exists. exists "."%char. split; [exact J|]. destruct (ascii_dec "."%char "."%char); [reflexivity|congruence]. }
  assert (P : forall l : list str, forallb (fun a => forallb (fun b => negb (has_prefix a b) || str_eqb a b) l) l = true -> prefix_free l).
  { intros l H a b A B r E. rewrite forallb_forall in H. specialize (H a A). rewrite forallb_forall in H. specialize (H b B).
    assert (has_prefix a b = true) as HP by (apply has_prefix_iff; exists r; exact E). rewrite HP in H. cbn in H.
    apply str_eqb_eq in H. subst b. rewrite <- (app_nil_r a) in E at 1. apply app_inv_head in E. congruence. }
  split; [apply D; vm_compute; reflexivity|]. split; [apply D; vm_compute; reflexivity|].
  split; apply P; vm_compute; reflexivity.
Qed.

(** By kind, by action or by both, for names without dots of which none begins another;
    an error only when there is nothing. *)
(** Partial.  Full statement: Get and Size by kind, by action, by both or of everything give exactly
    the measurements put and not cleared.  It fails in general: [C106_all_refuted],
    [C106_all_wrong_refuted], [C106_dot_refuted], [C106_between_refuted], [C106_empty_refuted].
    Refuted: Get of everything gives keys for actions, so no measurement in it was ever put; a dot
    in an action hides its measurements; an action that goes on with a dash hides those of the
    shorter one; a store without measurements answers with an error. *)
Theorem C106_get_partial : forall K A ops kind action, good_names K A -> Forall (lawful K A) ops -> kind <> [] \/ action <> [] ->
  match ls_get (ls_run ops) kind action with
  | Some l => Permutation l (filter (matchb kind action) (sp_run ops))
  | None => filter (matchb kind action) (sp_run ops) = []
  end.
Proof. exact get_correct. Qed.
Print Assumptions C106_get_partial.

(** The number of measurements, also of all. *)
(** Partial; the full statement is at [C106_get_partial]. *)
Theorem C106_size_partial : forall K A ops kind action, good_names K A -> Forall (lawful K A) ops ->
  ls_size (ls_run ops) kind action = Z.of_nat (List.length (filter (matchb kind action) (sp_run ops))).
Proof. exact size_correct. Qed.
Print Assumptions C106_size_partial.

(** Of everything: kinds and costs are right, each action is a key instead. *)
(** Partial; the full statement is at [C106_get_partial]. *)
Theorem C106_all_partial : forall K A ops l, good_names K A -> Forall (lawful K A) ops -> ls_get (ls_run ops) [] [] = Some l ->
  Permutation (map (fun p => (p_kind p, p_cost p)) l) (map (fun p => (p_kind p, p_cost p)) (sp_run ops)) /\
  Forall (fun p => exists n, p_action p = p_kind p ++ "."%char :: print_N n) l.
Proof. exact get_all. Qed.
Print Assumptions C106_all_partial.

Lemma lawfulb : forall l, forallb (fun p => existsb (str_eqb (p_kind p)) own_kinds && existsb (str_eqb (p_action p)) own_actions && (- 2 ^ 63 <=? p_cost p) && (p_cost p <? 2 ^ 63)) l = true ->
  lawful own_kinds own_actions (LPut l).
Proof.
  intros l H. cbn. rewrite Forall_forall. intros p I. rewrite forallb_forall in H. specialize (H p I).
  apply andb_true_iff in H as [H H4]. apply andb_true_iff in H as [H H3]. apply andb_true_iff in H as [H1 H2].
  apply existsb_exists in H1 as (k & K1 & K2). apply existsb_exists in H2 as (a & A1 & A2). apply str_eqb_eq in K2, A2. subst k a.
  unfold named, duration. rewrite Z.leb_le in H3. rewrite Z.ltb_lt in H4. auto.
Qed.

(** [Get] of everything never gives a stored measurement back. *)
Theorem C106_all_refuted : ~ get_exact.
Proof.
  intros H.
  assert (E : ls_get (ls_run [LPut [m1]]) [] [] = Some [mk_perf (s2l "http"%string) (s2l "http.1"%string) 5]) by (vm_compute; reflexivity).
  specialize (H [LPut [m1]] [] [] _ (Forall_cons _ (lawfulb [m1] eq_refl) (Forall_nil _)) E).
  change (filter _ _) with [m1] in H. apply Permutation_length_1 in H. discriminate H.
Qed.
Print Assumptions C106_all_refuted.

Theorem C106_all_wrong_refuted : forall K A ops l p, good_names K A -> Forall (lawful K A) ops -> ls_get (ls_run ops) [] [] = Some l ->
  In p l -> ~ In p (sp_run ops).
Proof.
  intros K A ops l p G L E I J. destruct (get_all K A ops l G L E) as [_ W]. rewrite Forall_forall in W. destruct (W p I) as (n & Ea).
  destruct (ls_run_inv K A ops G L) as [_ N]. rewrite Forall_forall in N. destruct (N p J) as (_ & Ia & _).
  destruct G as (_ & PA & _). rewrite Forall_forall in PA. apply (proj2 (PA _ Ia)). rewrite Ea. apply in_or_app. right. left. reflexivity.
Qed.
Print Assumptions C106_all_wrong_refuted.

(** Names: a dot in an action hides its measurements; an action that goes on with a dash
    hides those of the shorter one. *)
Theorem C106_dot_refuted : exists p, p_kind p <> [] /\ p_action p <> [] /\ ls_get (ls_put ls_new [p]) (p_kind p) (p_action p) = Some [].
Proof. exists (mk_perf (s2l "http"%string) (s2l "v1.read"%string) 5). split; [discriminate|]. split; [discriminate|]. vm_compute. reflexivity. Qed.
Print Assumptions C106_dot_refuted.

Theorem C106_between_refuted : exists p q, plain (p_kind p) /\ plain (p_action p) /\ plain (p_kind q) /\ plain (p_action q) /\
  ls_get (ls_put ls_new [p]) (p_kind p) (p_action p) = Some [p] /\
  ls_get (ls_put ls_new [p; q]) (p_kind p) (p_action p) = Some [].
Proof.
  exists m1, (mk_perf (s2l "http"%string) (s2l "read-all"%string) 5).
  assert (PL : forall s, negb (str_eqb s []) && negb (existsb (fun c => if ascii_dec c "."%char then true else false) s) = true -> plain s).
  { intros s H. apply andb_true_iff in H as [H1 H2]. split; [destruct (str_eqb_spec s []); [discriminate|assumption]|]. intros J.
    apply negb_true_iff, Bool.not_true_iff_false in H2. apply H2. apply existsb_exists. exists "."%char. split; [exact J|].
    destruct (ascii_dec "."%char "."%char); [reflexivity|congruence]. }
  repeat split; try (apply PL; vm_compute; reflexivity); vm_compute; reflexivity.
Qed.
Print Assumptions C106_between_refuted.

(** A kind nothing was put under is an error, not an empty answer. *)
Theorem C106_empty_refuted : forall kind action, ls_get ls_new kind action = None.
Proof. intros kind action. unfold ls_get. cbn. destruct (str_eqb kind []), (str_eqb action []); reflexivity. Qed.
Print Assumptions C106_empty_refuted.

Definition some_ops : list lop := [LPut [m1; m2; m3; m1]; LPut [mk_perf (s2l "http"%string) (s2l "read"%string) (-3)]].
Example C106_names : good_names own_kinds own_actions.
Proof. exact own_good. Qed.
Example C106_case : Forall (lawful own_kinds own_actions) some_ops /\
  ls_get (ls_run some_ops) (s2l "http"%string) (s2l "read"%string) = Some [m1; m1; mk_perf (s2l "http"%string) (s2l "read"%string) (-3)] /\
  ls_get (ls_run some_ops) [] (s2l "read"%string) = Some [m2; m1; m1; mk_perf (s2l "http"%string) (s2l "read"%string) (-3)] /\
  ls_size (ls_run some_ops) [] [] = 5.
Proof.
  split; [apply Forall_cons; [apply lawfulb; vm_compute; reflexivity|]; apply Forall_cons; [apply lawfulb; vm_compute; reflexivity|apply Forall_nil]|].
  vm_compute. auto.
Qed.
Example C106_all_case : option_map (map p_action) (ls_get (ls_run [LPut [m1; m3]]) [] []) = Some [s2l "http.1"%string; s2l "http.1"%string].
Proof. vm_compute. reflexivity. Qed.

(** * C107: clearing *)

(** What is asked: after [Clear] exactly the measurements of the kind and action are gone. *)
Definition clear_exact : Prop := forall ops kind action k a, Forall (lawful own_kinds own_actions) ops ->
  ls_size (snd (ls_clear (ls_run ops) kind action)) k a =
  Z.of_nat (List.length (filter (matchb k a) (sp_run (ops ++ [LClear kind action])))).

(** By both names, or of everything, it is so. *)
(** Partial.  Full statement: Clear removes the measurements of the kind and action given, all of
    them and no other.  It fails in general: [C107_kind_refuted], [C107_action_refuted],
    [C107_exact_refuted], [C107_prefix_refuted].  Refuted: by kind alone or by action alone Clear
    fails as soon as there is something to clear (Delete of a nested bucket); a kind that begins
    another takes its measurements along from one of the two copies. *)
Theorem C107_both_partial : forall K A ops kind action k a, good_names K A -> Forall (lawful K A) ops ->
  (In kind K /\ In action A) \/ (kind = [] /\ action = []) ->
  let s := snd (ls_clear (ls_run ops) kind action) in
  let l := filter (fun p => negb (matchb kind action p)) (sp_run ops) in
  fst (ls_clear (ls_run ops) kind action) = true /\
  ls_size s k a = Z.of_nat (List.length (filter (matchb k a) l)) /\
  (k <> [] \/ a <> [] -> match ls_get s k a with
                         | Some r => Permutation r (filter (matchb k a) l)
                         | None => filter (matchb k a) l = []
                         end).
Proof.
  intros K A ops kind action k a G L C. cbv zeta.
  assert (Forall (lawful K A) (ops ++ [LClear kind action])) as L' by (apply Forall_app; split; [exact L|apply Forall_cons; [exact C|apply Forall_nil]]).
  pose proof (size_correct K A _ k a G L') as Z1. pose proof (get_correct K A _ k a G L') as Z2.
  assert (ls_run (ops ++ [LClear kind action]) = snd (ls_clear (ls_run ops) kind action)) as R by (unfold ls_run; rewrite fold_left_app; reflexivity).
  assert (sp_run (ops ++ [LClear kind action]) = filter (fun p => negb (matchb kind action p)) (sp_run ops)) as Q by (unfold sp_run; rewrite fold_left_app; reflexivity).
  rewrite R, Q in Z1, Z2. split; [|split; [exact Z1|exact Z2]].
  unfold ls_clear. destruct C as [[Ik Ia]|[-> ->]]; [|reflexivity].
  destruct G as (PK & PA & _). rewrite Forall_forall in PK, PA.
  destruct (str_eqb_spec kind []) as [E|_]; [exfalso; exact (proj1 (PK _ Ik) E)|].
  destruct (str_eqb_spec action []) as [E|_]; [exfalso; exact (proj1 (PA _ Ia) E)|]. reflexivity.
Qed.
Print Assumptions C107_both_partial.

(** By kind alone, or by action alone, nothing that is stored is ever removed: the call
    fails as soon as there is something to remove. *)
Theorem C107_kind_refuted : forall K A ops kind p, good_names K A -> Forall (lawful K A) ops -> kind <> [] ->
  In p (sp_run ops) -> p_kind p = kind -> ls_clear (ls_run ops) kind [] = (false, ls_run ops).
Proof.
  intros K A ops kind p G L Hk I E. destruct (ls_run_inv K A ops G L) as [[_ [_ H]] _]. specialize (H kind).
  unfold ls_clear. destruct (str_eqb_spec kind []); [congruence|]. cbn. rewrite find_open.
  destruct (kv_get kind _) as [b|]; [reflexivity|]. exfalso.
  assert (In p (filter (fun p => str_eqb (p_kind p) kind) (sp_run ops))) as J by (apply filter_In; split; [exact I|apply str_eqb_eq; exact E]).
  rewrite H in J. destruct J.
Qed.
Print Assumptions C107_kind_refuted.

Theorem C107_action_refuted : forall K A ops action p, good_names K A -> Forall (lawful K A) ops -> action <> [] ->
  In p (sp_run ops) -> p_action p = action -> ls_clear (ls_run ops) [] action = (false, ls_run ops).
Proof.
  intros K A ops action p G L Hk I E. destruct (ls_run_inv K A ops G L) as [[[_ H] _] _]. specialize (H action).
  unfold ls_clear. destruct (str_eqb_spec action []); [congruence|]. cbn. rewrite find_open.
  destruct (kv_get action _) as [b|]; [reflexivity|]. exfalso.
  assert (In p (filter (fun p => str_eqb (p_action p) action) (sp_run ops))) as J by (apply filter_In; split; [exact I|apply str_eqb_eq; exact E]).
  rewrite H in J. destruct J.
Qed.
Print Assumptions C107_action_refuted.

Theorem C107_exact_refuted : ~ clear_exact.
Proof.
  intros H. specialize (H [LPut [m1]] (s2l "http"%string) [] [] [] (Forall_cons _ (lawfulb [m1] eq_refl) (Forall_nil _))).
  vm_compute in H. discriminate H.
Qed.
Print Assumptions C107_exact_refuted.

(** A kind that begins another takes its measurements along, from one of the two copies. *)
Theorem C107_prefix_refuted : exists p kind, p_kind p <> kind /\
  let s := snd (ls_clear (ls_put ls_new [p]) kind (p_action p)) in
  ls_size s [] (p_action p) = 0 /\ ls_size s (p_kind p) [] = 1.
Proof. exists (mk_perf (s2l "https"%string) (s2l "read"%string) 5), (s2l "http"%string). split; [discriminate|]. vm_compute. auto. Qed.
Print Assumptions C107_prefix_refuted.

Example C107_case : fst (ls_clear (ls_run some_ops) (s2l "http"%string) (s2l "read"%string)) = true /\
  let s := snd (ls_clear (ls_run some_ops) (s2l "http"%string) (s2l "read"%string)) in
  ls_size s [] [] = 2 /\ ls_get s [] (s2l "read"%string) = Some [m2] /\ ls_get s (s2l "http"%string) [] = Some [m3].
Proof. vm_compute. auto. Qed.

(** * C108: sums and averages *)

(** What is asked: one row for each kind and action, with the sum or the average. *)
Definition sums_right : Prop := forall l, Forall (fun p => duration (p_cost p)) l -> is_table total l (sum_of l).
Definition averages_right : Prop := forall l, Forall (fun p => duration (p_cost p)) l -> is_table mean l (average_of l).

(** Partial.  Full statement: Sum and Average have one row for each kind and action among the
    measurements, with the sum or the average of their costs.  It fails in general:
    [C108_overflow_refuted], [C108_dot_refuted], [C108_all_refuted].  Refuted: two positive costs
    with a negative average; names with dots are mixed up; the local store's sum of everything has
    rows for no action there is. *)
Theorem C108_sum_partial : forall l, Forall dotless l -> (forall p, In p l -> duration (total (costs (p_kind p) (p_action p) l))) ->
  is_table total l (sum_of l).
Proof. exact sum_table. Qed.
Print Assumptions C108_sum_partial.

(** Partial; the full statement is at [C108_sum_partial]. *)
Theorem C108_average_partial : forall l, Forall dotless l -> (forall p, In p l -> duration (total (costs (p_kind p) (p_action p) l))) ->
  is_table mean l (average_of l).
Proof. exact average_table. Qed.
Print Assumptions C108_average_partial.

(** The local store's sums by kind, by action or by both are those of what was put. *)
(** Partial; the full statement is at [C108_sum_partial]. *)
Theorem C108_store_partial : forall K A ops kind action rows, good_names K A -> Forall (lawful K A) ops -> kind <> [] \/ action <> [] ->
  (forall k a, duration (total (costs k a (filter (matchb kind action) (sp_run ops))))) ->
  ls_sum (ls_run ops) kind action = Some rows ->
  is_table total (filter (matchb kind action) (sp_run ops)) rows.
Proof.
  intros K A ops kind action rows G L NE D E. pose proof (get_correct K A ops kind action G L NE) as P.
  unfold ls_sum in E. destruct (ls_get (ls_run ops) kind action) as [l|]; [|discriminate]. injection E as <-.
  assert (C : forall k a, Permutation (costs k a l) (costs k a (filter (matchb kind action) (sp_run ops)))).
  { intros k a. unfold costs. apply Permutation_map, filter_perm, P. }
  assert (T : forall a b, Permutation a b -> total a = total b).
  { clear. intros a b P. unfold total. induction P; cbn [fold_right] in *; lia. }
  destruct (ls_run_inv K A ops G L) as [_ N].
  assert (Forall dotless l) as DL.
  { rewrite Forall_forall in *. intros p I. apply (Permutation_in _ P) in I. apply filter_In in I as [I _]. destruct (N p I) as (Ik & Ia & _).
    destruct G as (PK & PA & _). rewrite Forall_forall in PK, PA. split; [apply PK, Ik|apply PA, Ia]. }
  destruct (sum_table l DL) as [N1 N2].
  { intros p I. rewrite (T _ _ (C _ _)). apply D. }
  split; [exact N1|]. intros r. rewrite N2. rewrite (T _ _ (C _ _)).
  split; intros ((p & I & E1 & E2) & Ec); (split; [exists p; split; [|auto]|exact Ec]).
  - apply (Permutation_in _ P), I.
  - apply (Permutation_in _ (Permutation_sym P)), I.
Qed.
Print Assumptions C108_store_partial.

(** Sums beyond int64 wrap: the average of two positive durations is negative. *)
Theorem C108_overflow_refuted : ~ averages_right.
Proof.
  intros H. set (p := mk_perf (s2l "http"%string) (s2l "read"%string) (2 ^ 62 + 2 ^ 61)).
  destruct (H [p; p]) as [_ R]. { repeat constructor; cbn; lia. }
  assert (In (mk_perf (s2l "http"%string) (s2l "read"%string) (- 2 ^ 61)) (average_of [p; p])) as I by (vm_compute; left; reflexivity).
  apply R in I as [_ I]. vm_compute in I. discriminate I.
Qed.
Print Assumptions C108_overflow_refuted.

(** Names with dots are mixed up. *)
Theorem C108_dot_refuted : ~ sums_right.
Proof.
  intros H. destruct (H [mk_perf (s2l "a.b"%string) (s2l "c"%string) 1; mk_perf (s2l "a"%string) (s2l "b.c"%string) 2]) as [_ R].
  { repeat constructor; cbn; lia. }
  assert (In (mk_perf (s2l "a"%string) (s2l "b"%string) 3) (sum_of [mk_perf (s2l "a.b"%string) (s2l "c"%string) 1; mk_perf (s2l "a"%string) (s2l "b.c"%string) 2])) as I by (vm_compute; left; reflexivity).
  apply R in I as [(p & [<-|[<-|[]]] & E1 & E2) _]; discriminate.
Qed.
Print Assumptions C108_dot_refuted.

(** The sum of everything has rows for no kind and action there is. *)
Theorem C108_all_refuted : exists ops, Forall (lawful own_kinds own_actions) ops /\
  ls_sum (ls_run ops) [] [] = Some [mk_perf (s2l "http"%string) (s2l "http"%string) 5; mk_perf (s2l "http"%string) (s2l "http"%string) 5] /\
  ls_sum (ls_run ops) (s2l "http"%string) [] = Some [mk_perf (s2l "http"%string) (s2l "read"%string) 10].
Proof. exists [LPut [m1; m1]]. split; [apply Forall_cons; [apply lawfulb; vm_compute; reflexivity|apply Forall_nil]|]. vm_compute. auto. Qed.
Print Assumptions C108_all_refuted.

Example C108_case : Forall dotless [m1; m2; m3; m1] /\
  sum_of [m1; m2; m3; m1] = [mk_perf (s2l "http"%string) (s2l "read"%string) 10; m2; m3] /\
  average_of [m1; m2; m3; m1; mk_perf (s2l "http"%string) (s2l "read"%string) 10] = [mk_perf (s2l "http"%string) (s2l "read"%string) 6; m2; m3].
Proof.
  split; [|vm_compute; auto].
  assert (DL : forall s, existsb (fun c => if ascii_dec c "."%char then true else false) s = false -> ~ In "."%char s).
  { intros s H J. apply Bool.not_true_iff_false in H. apply H. apply existsb_exists. exists "."%char. split; [exact J|].
    destruct (ascii_dec "."%char "."%char); [reflexivity|congruence]. }
  repeat constructor; apply DL; vm_compute; reflexivity.
Qed.

(** * C109: the shared store keeps what is put *)

(** What is asked: after a successful [Put], [Get] gives the measurements of the allowed
    actions, with their costs. *)
Definition shared_keeps (dur_string : Z -> str) : Prop := forall lock ts l kv',
  es_put dur_string 100000 own_actions lock own_actions ts l [] = (ROk, kv') -> (List.length ts = List.length l)%nat ->
  Permutation (es_get own_actions kv' [] []) (filter (fun p => contains (p_action p) own_actions) l).

(** Each allowed measurement is stored under its key. *)
(** Partial.  Full statement: After a successful Put into the shared store, Get gives the
    measurements of the allowed actions with their costs; a Put of several measurements succeeds;
    Put and Close return, and a collector goes on saving; Clear removes what is named.  It fails in
    general: [C109_zero_refuted], [C109_panic_refuted], [C109_crash_refuted], [C109_lock_refuted],
    [C109_stuck_refuted], [C109_once_refuted], [C109_pile_refuted], [C109_clear_refuted],
    [C109_keeps_refuted], [C109_overwritten_refuted].  Refuted: the lock of checkSize has the prefix
    of the measurements, so once one is stored no later put of any API server gets the lock, its
    collector saves nothing more, goroutines pile up and Close does not return; every cost read back
    is 0 (the text of a duration is read as an integer); two measurements at once panic in the
    client (Then called twice), and since Recover panics again (C117) the next flush that is due
    ends the API server; Clear without an action panics; two puts in one millisecond overwrite each
    other. *)
Theorem C109_stored_partial : forall dur_string max_size allowed lock seen ts l kv kv',
  es_put dur_string max_size allowed lock seen ts l kv = (ROk, kv') ->
  forall p t, In (p, t) (combine (filter (fun p => contains (p_action p) allowed) l) ts) ->
  kv_get (ekey p t) kv' = Some (dur_string (p_cost p)).
Proof. exact put_stored. Qed.
Print Assumptions C109_stored_partial.

(** Every cost read back is 0: the text of a duration ends in its unit. *)
Theorem C109_zero_refuted : forall dur_string max_size allowed lease ops kind action p,
  (forall c, exists t, dur_string c = t ++ ["s"%char]) ->
  In p (es_get allowed (es_kv (es_run dur_string max_size allowed lease ops es_new)) kind action) -> p_cost p = 0.
Proof. exact get_zero. Qed.
Print Assumptions C109_zero_refuted.

(** Two measurements of allowed actions at once: the put panics, or waits, and stores
    nothing. *)
Theorem C109_panic_refuted : forall dur_string max_size allowed lock seen ts l kv,
  (2 <= List.length (filter (fun p => contains (p_action p) allowed) l))%nat ->
  fst (es_put dur_string max_size allowed lock seen ts l kv) <> ROk /\
  (before_lock kv = [] -> fst (es_put dur_string max_size allowed lock seen ts l kv) = RPanic) /\
  forall e, In e (snd (es_put dur_string max_size allowed lock seen ts l kv)) -> In e kv.
Proof. exact put_panics. Qed.
Print Assumptions C109_panic_refuted.

(** A collector that flushes when full and has two of them in memory never saves again;
    the next flush that is due ends the API server, or never ends itself. *)
Theorem C109_crash_refuted : forall allowed cf es there c, pc_flush cf = true ->
  (2 <= List.length (filter (fun p => contains (p_action p) allowed) (cl_mem c)))%nat ->
  match shared_run allowed cf es (Live there c) with
  | Gone => True
  | Waits c' | Live _ c' => cl_saved c' = cl_saved c /\ exists more, cl_mem c' = cl_mem c ++ more
  end /\
  forall ok, shared_run allowed cf (Own (ETick true ok) :: es) (Live false c) = Gone.
Proof.
  intros allowed cf es there c F H.
  assert (T : takes allowed (cl_mem c) = false) by (unfold takes, thens, allows; apply Nat.leb_gt; lia).
  split; [apply (shared_doomed print_Z 0); assumption|intros ok; apply shared_tick; exact T].
Qed.
Print Assumptions C109_crash_refuted.

(** The lock and the measurements share a prefix.  A put that asks for the lock while a
    measurement is stored does not get it as long as that measurement is there, whatever
    all the API servers do. *)
Theorem C109_lock_refuted : forall dur_string max_size allowed lease ops i l k more,
  let s := es_run dur_string max_size allowed lease ops es_new in
  let at_ := fun later => es_run dur_string max_size allowed lease (SAsk i l :: later) s in
  way_of i (es_ways s) = None -> In k (map fst (es_kv s)) ->
  ~ In (SEnd i) more -> (forall pre post, more = pre ++ post -> In k (map fst (es_kv (at_ pre)))) ->
  exists w, way_of i (es_ways (at_ more)) = Some w /\ w_phase w = WWaits.
Proof.
  intros dur_string max_size allowed lease ops i l k more s at_ W K E H.
  destruct (held_up_run dur_string max_size allowed lease more _ i k
              (ask_held_up dur_string max_size allowed lease ops i l k W K) E H) as (w & A & B & _).
  exists w. auto.
Qed.
Print Assumptions C109_lock_refuted.

(** So a collector saves nothing more once a measurement is in etcd: it never ends, never
    saves, and its [Close] does not return. *)
Theorem C109_stuck_refuted : forall allowed cf es c,
  match shared_run allowed cf es (Live true c) with
  | Gone => False
  | Waits c' | Live _ c' => cl_saved c' = cl_saved c
  end /\
  forall ok, exists c', shared_run allowed cf (es ++ [Own (EClose ok)]) (Live true c) = Waits c'.
Proof.
  intros allowed cf es c. pose proof (shared_stuck print_Z 0 allowed cf es c) as H. split.
  - destruct (shared_run allowed cf es (Live true c)); [apply H|exact H|exact H].
  - intros ok. unfold shared_run in *. rewrite fold_left_app. cbn [fold_left].
    destruct (fold_left (shared_step allowed cf) es (Live true c)) as [t c'|c'|]; [|exists c'; reflexivity|destruct H].
    destruct H as [-> _]. exists c'. reflexivity.
Qed.
Print Assumptions C109_stuck_refuted.

(** From its start to its end an API server saves one measurement of an allowed action at
    most. *)
Theorem C109_once_refuted : forall allowed cf es,
  match shared_run allowed cf es (Live false coll_new) with
  | Gone => True
  | Waits c | Live _ c => (List.length (filter (fun p => contains (p_action p) allowed) (cl_saved c)) <= 1)%nat
  end.
Proof.
  intros allowed cf es. pose proof (shared_once print_Z 0 allowed cf es) as H.
  destruct (shared_run allowed cf es (Live false coll_new)); [apply H|exact H|exact H].
Qed.
Print Assumptions C109_once_refuted.

(** While a collector waits, each call leaves a goroutine more. *)
Theorem C109_pile_refuted : forall allowed cf es c, exists c',
  shared_run allowed cf es (Waits c) = Waits c' /\
  cl_pending c' = cl_pending c ++ calls (flat_map (fun e => match e with Own x => [x] | Other => [] end) es).
Proof.
  intros allowed cf es c. eexists. split; [apply shared_waits|]. cbn [cl_pending]. f_equal. unfold calls.
  induction es as [|e es IH]; [reflexivity|]. destruct e as [[p|i ok|due ok|ok]|]; cbn [flat_map app]; rewrite <- ?IH; reflexivity.
Qed.
Print Assumptions C109_pile_refuted.

(** Clearing without an action panics and removes nothing. *)
Theorem C109_clear_refuted : forall allowed kv kind, (2 <= List.length allowed)%nat -> es_clear allowed kv kind [] = (RPanic, kv).
Proof. exact (clear_panics print_Z 0). Qed.
Print Assumptions C109_clear_refuted.

(** A text of a duration, for the examples: nanoseconds as seconds. *)
Definition plain_text (c : Z) : str := print_Z c ++ s2l "ns"%string.

(** Leases and keys of the lock, for the examples. *)
Definition lease_name (i : nat) : str := s2l "694d"%string ++ print_Z (Z.of_nat i).
Definition lock1 : str := etcd_prefix ++ "/"%char :: lease_name 1.

Theorem C109_keeps_refuted : ~ shared_keeps plain_text.
Proof.
  intros H.
  assert (E : es_put plain_text 100000 own_actions lock1 own_actions [17] [m1] [] = (ROk, [(ekey m1 17, s2l "5ns"%string)])) by (vm_compute; reflexivity).
  specialize (H lock1 [17] [m1] _ E eq_refl).
  assert (G : es_get own_actions [(ekey m1 17, s2l "5ns"%string)] [] [] = [mk_perf (s2l "17"%string) [] 0]) by (vm_compute; reflexivity).
  rewrite G in H. change (filter _ _) with [m1] in H. apply Permutation_length_1 in H. discriminate H.
Qed.
Print Assumptions C109_keeps_refuted.

(** Two API servers in one millisecond: the first measurement is overwritten. *)
Definition both : list esop :=
  [SAsk 0 [m1]; SAsk 1 [m1]; SGrant 0; STrim 0 []; SGrant 1; STrim 1 own_actions; SCommit 1 [17]; SCommit 0 [17]].
Theorem C109_overwritten_refuted :
  es_run plain_text 100000 own_actions lease_name both es_new = mk_es [(ekey m1 17, s2l "5ns"%string)] [].
Proof. vm_compute. reflexivity. Qed.
Print Assumptions C109_overwritten_refuted.

Example C109_text : forall c, exists t, plain_text c = t ++ ["s"%char].
Proof. intros c. exists (print_Z c ++ ["n"%char]). unfold plain_text. rewrite <- app_assoc. reflexivity. Qed.
Example C109_case :
  let r := es_put plain_text 100000 own_actions lock1 own_actions [18] [m1; mk_perf (s2l "http"%string) (s2l "list"%string) 1] [] in
  fst r = ROk /\ List.length (snd r) = 1%nat /\ kv_get (ekey m1 18) (snd r) = Some (s2l "5ns"%string) /\
  es_get own_actions (snd r) (s2l "http"%string) (s2l "read"%string) = [mk_perf (s2l "18"%string) (s2l "read"%string) 0].
Proof. vm_compute. auto. Qed.
Example C109_panic_case : fst (es_put plain_text 100000 own_actions lock1 own_actions [17; 18] [m1; m3] []) = RPanic /\
  fst (es_put plain_text 100000 own_actions lock1 own_actions [17; 18] [m1; m3] [(ekey m1 17, s2l "5ns"%string)]) = RWaits.
Proof. vm_compute. auto. Qed.
Example C109_crash_case :
  shared_run own_actions (mk_pconf 2 true) [Own (EAsync m1); Own (EAsync m3); Own (EAsync m2); Own (ERun 0 true); Own (ERun 0 true)] (Live false coll_new)
  = Live false (mk_coll [m1; m3] [] [m2]) /\
  shared_run own_actions (mk_pconf 2 true) [Own (ERun 0 true)] (Live false (mk_coll [m1; m3] [] [m2])) = Gone /\
  shared_run own_actions (mk_pconf 2 true) [Other; Own (ERun 0 true)] (Live false (mk_coll [m1; m3] [] [m2])) = Waits (mk_coll [m1; m3; m2] [] []).
Proof. vm_compute. auto. Qed.
(** One measurement saved, the next held up; another server that asks is held up too. *)
Example C109_stuck_case :
  shared_run own_actions (mk_pconf 2 true)
    [Own (EAsync m1); Own (ERun 0 true); Own (ETick true true); Own (EAsync m2); Own (ERun 0 true); Own (ETick true true);
     Own (EAsync m3); Own (EClose true)] (Live false coll_new)
  = Waits (mk_coll [m2] [m1] [m3]).
Proof. vm_compute. reflexivity. Qed.
Example C109_lock_case : let s := es_run plain_text 100000 own_actions lease_name both es_new in
  way_of 2 (es_ways s) = None /\ In (ekey m1 17) (map fst (es_kv s)) /\
  forall pre post, [SGrant 2; SAsk 0 []; SGrant 0; SGrant 2; STrim 2 []; SCommit 2 [19]] = pre ++ post ->
    In (ekey m1 17) (map fst (es_kv (es_run plain_text 100000 own_actions lease_name (SAsk 2 [m3] :: pre) s))).
Proof.
  cbv zeta. split; [vm_compute; reflexivity|]. split; [vm_compute; auto|].
  intros pre post H. do 6 (destruct pre as [|? pre]; [vm_compute; auto|injection H as <- H]).
  destruct pre; [vm_compute; auto|discriminate H].
Qed.
(** Without a measurement the lock goes from one to the next. *)
Example C109_free_case :
  map w_phase (es_ways (es_run plain_text 100000 own_actions lease_name (firstn 5 both) es_new)) = [WPast; WHas].
Proof. vm_compute. reflexivity. Qed.

(** * C110: the shared store stays within its size *)

(** What is asked: never more pairs than [maxSize]. *)
Definition shared_bounded : Prop := forall dur_string max_size allowed lease ops, 0 < max_size ->
  Z.of_nat (List.length (es_kv (es_run dur_string max_size allowed lease ops es_new))) <= max_size.

(** Each API server has one pair at most: [n] servers store [n] pairs at most, whatever
    they do.  So the limit holds for as many servers as it has pairs. *)
(** Partial.  Full statement: The shared store never holds more than maxSize measurements, and the
    oldest go first.  It fails in general: [C110_size_refuted], [C110_bounded_refuted],
    [C110_remove_refuted], [C110_oldest_refuted], [C110_lock_refuted].  Refuted: servers that ask
    before the first commits store a measurement each, whatever the limit; removeOldKeys removes one
    key less than asked, the first by name, not the oldest, and the key of the lock before any
    measurement. *)
Theorem C110_within_partial : forall dur_string max_size allowed lease n ops, Forall (by_servers n) ops ->
  (List.length (es_kv (es_run dur_string max_size allowed lease ops es_new)) <= n)%nat.
Proof. exact run_within. Qed.
Print Assumptions C110_within_partial.

(** One API server at a time checks the size. *)
Theorem C110_exclusive : forall dur_string max_size allowed lease ops w w',
  let s := es_run dur_string max_size allowed lease ops es_new in
  In w (es_ways s) -> In w' (es_ways s) -> w_phase w = WHas -> w_phase w' = WHas -> w = w'.
Proof. exact holder_alone. Qed.
Print Assumptions C110_exclusive.

(** When [Size] counts every pair, at most two too many stay beside what is to be put. *)
(** Partial; the full statement is at [C110_within_partial]. *)
Theorem C110_counted_partial : forall dur_string max_size allowed lease ops le seen n,
  let kv := es_kv (es_run dur_string max_size allowed lease ops es_new) in
  es_size seen kv [] = Z.of_nat (List.length kv) -> Z.of_nat n <= max_size ->
  Z.of_nat (List.length (check_size max_size (etcd_prefix ++ "/"%char :: le) seen n kv)) + Z.of_nat n <= max_size + 2.
Proof. exact check_limit. Qed.
Print Assumptions C110_counted_partial.

(** More servers that ask before the first of them commits: more pairs, for any limit. *)
Theorem C110_size_refuted : forall dur_string max_size allowed lease p n, 1 <= max_size -> In (p_action p) allowed ->
  exists ops, List.length (es_kv (es_run dur_string max_size allowed lease ops es_new)) = n.
Proof.
  intros dur_string max_size allowed lease p n M2 A. exists (crowd_asks p n ++ crowd_commits n).
  apply (crowd_size dur_string max_size allowed lease p n M2 A).
Qed.
Print Assumptions C110_size_refuted.

Theorem C110_bounded_refuted : ~ shared_bounded.
Proof.
  intros H. destruct (C110_size_refuted plain_text 1 own_actions lease_name m1 2) as (ops & E); [lia|right; left; reflexivity|].
  specialize (H plain_text 1 own_actions lease_name ops eq_refl). rewrite E in H. lia.
Qed.
Print Assumptions C110_bounded_refuted.

(** [removeOldKeys] removes one key less than it should. *)
Theorem C110_remove_refuted : forall dur_string max_size allowed lease ops limit,
  let kv := es_kv (es_run dur_string max_size allowed lease ops es_new) in
  0 < limit <= Z.of_nat (List.length kv) ->
  Z.of_nat (List.length (remove_old limit kv)) = Z.of_nat (List.length kv) - (limit - 1).
Proof.
  intros dur_string max_size allowed lease ops limit kv R.
  apply (remove_old_count dur_string max_size allowed); [apply run_sorted|apply run_prefixed|exact R].
Qed.
Print Assumptions C110_remove_refuted.

(** Three servers: the third checks the size after the others have committed. *)
Definition three : list esop :=
  [SAsk 0 [m3]; SAsk 1 [m1]; SAsk 2 [m2]; SGrant 0; STrim 0 own_actions; SGrant 1; STrim 1 own_actions; SGrant 2;
   SCommit 0 [17]; SCommit 1 [18]].

(** And not the oldest: reads go before older writes. *)
Theorem C110_oldest_refuted :
  map fst (remove_old 2 (es_kv (es_run plain_text 100000 own_actions lease_name three es_new))) = [ekey m3 17].
Proof. vm_compute. reflexivity. Qed.
Print Assumptions C110_oldest_refuted.

(** And the key of the lock before any measurement: asked to remove two, it removes none. *)
Theorem C110_lock_refuted :
  es_kv (es_run plain_text 1 own_actions lease_name (three ++ [STrim 2 own_actions]) es_new)
  = es_kv (es_run plain_text 1 own_actions lease_name three es_new) /\
  List.length (es_kv (es_run plain_text 1 own_actions lease_name (three ++ [STrim 2 own_actions; SCommit 2 [19]]) es_new)) = 3%nat.
Proof. vm_compute. auto. Qed.
Print Assumptions C110_lock_refuted.

Example C110_case : let kv := es_kv (es_run plain_text 1 own_actions lease_name three es_new) in
  es_size own_actions kv [] = Z.of_nat (List.length kv) /\ List.length kv = 2%nat /\
  List.length (check_size 1 lock1 own_actions 1 kv) = 2%nat.
Proof. vm_compute. auto. Qed.
Example C110_within_case : Forall (by_servers 3) three /\
  map w_phase (es_ways (es_run plain_text 1 own_actions lease_name three es_new)) = [WHas].
Proof. split; [repeat constructor|vm_compute; reflexivity]. Qed.
