From Verif Require Import Str_Spec Str_Proofs Owner_Model Status_Model Status_Spec.
Local Notation length := List.length.
Local Open Scope list_scope.

Local Arguments phase_of : simpl never.

Lemma status_eqb_eq : forall a b, status_eqb a b = true <-> a = b.
Proof. intros [] []; cbn; split; congruence. Qed.

Lemma phase_app : forall l e, phase_of (l ++ [e]) = next_phase (phase_of l) e.
Proof. intros l e. unfold phase_of. rewrite fold_left_app. reflexivity. Qed.

Lemma nth_list_set : forall (A : Type) (l : list A) i j x y, nth_error (list_set l i x) j = Some y ->
  (i = j /\ y = x) \/ (i <> j /\ nth_error l j = Some y).
Proof.
  induction l as [|a l IH]; intros [|i] [|j] x y H; cbn in *; try discriminate.
  - injection H as <-. auto.
  - right. split; [discriminate|exact H].
  - right. split; [discriminate|exact H].
  - destruct (IH i j x y H) as [[-> ->]|[H1 H2]]; [auto|]. right. split; [congruence|exact H2].
Qed.

Lemma snoc_split : forall (A : Type) (l l1 l2 : list A) x e, l ++ [e] = l1 ++ x :: l2 ->
  (l2 = [] /\ x = e /\ l1 = l) \/ (exists l2', l2 = l2' ++ [e] /\ l = l1 ++ x :: l2').
Proof.
  intros A l l1 l2 x e H. destruct l2 as [|y l2] using rev_ind.
  - apply app_inj_tail in H as [-> ->]. auto.
  - clear IHl2. right. exists l2. replace (l1 ++ x :: l2 ++ [y]) with ((l1 ++ x :: l2) ++ [y]) in H by (rewrite <- app_assoc; reflexivity).
    apply app_inj_tail in H as [-> ->]. auto.
Qed.

(** ** All schedules *)

Lemma checked_app : forall tid l e, checked tid l -> checked tid (l ++ [e]).
Proof. intros tid l e [l3 [l4 [-> H]]]. exists l3, (l4 ++ [e]). split; [rewrite <- app_assoc; reflexivity|exact H]. Qed.

Record inv (s : state) : Prop := {
  i_phase : exists p, phase_of (st_log s) = Some p /\ stands_for (st_status s) p;
  i_write : forall tid id info, nth_error (st_threads s) tid = Some (PPut id info) -> checked tid (st_log s);
  i_delete : forall tid id, nth_error (st_threads s) tid = Some (PDelete id) -> checked tid (st_log s);
  i_table : forall l1 tid l2, st_log s = l1 ++ ETable tid :: l2 -> checked tid l1 }.

Lemma inv_init : forall kv, inv (init kv).
Proof.
  intros kv. constructor; cbn.
  - exists Idle. split; reflexivity.
  - intros [|tid] id info H; discriminate.
  - intros [|tid] id H; discriminate.
  - intros [|? l1] tid l2 H; discriminate.
Qed.

(** A step that emits one event (or none) and moves its thread. *)
Lemma inv_goto : forall s tid p, inv s ->
  (forall id info, p <> PPut id info) -> (forall id, p <> PDelete id) -> inv (goto s tid p).
Proof.
  intros s tid p [H1 H2 H3 H4] N1 N2. constructor; cbn; try assumption.
  - intros t id info H. apply nth_list_set in H as [[_ H]|[_ H]]; [congruence|eauto].
  - intros t id H. apply nth_list_set in H as [[_ H]|[_ H]]; [congruence|eauto].
Qed.

Lemma inv_emit : forall s e x, inv s ->
  (exists p, next_phase (phase_of (st_log s)) e = Some p /\ stands_for x p) ->
  (forall tid, e = ETable tid -> checked tid (st_log s)) ->
  inv (emit (set_status s x) e).
Proof.
  intros s e x [H1 H2 H3 H4] HP HT. constructor; cbn.
  - rewrite phase_app. exact HP.
  - intros t id info H. apply checked_app. eauto.
  - intros t id H. apply checked_app. eauto.
  - intros l1 t l2 H. apply snoc_split in H as [[-> [He ->]]|[l2' [-> H]]]; [apply HT; congruence|eauto].
Qed.

Lemma set_status_same : forall s, set_status s (st_status s) = s.
Proof. intros []. reflexivity. Qed.

Lemma inv_fields : forall s h sl kv, inv s -> inv (set_kv (set_slots (set_host s h) sl) kv).
Proof. intros s h sl kv [H1 H2 H3 H4]. constructor; cbn; assumption. Qed.

Lemma inv_host : forall s h, inv s -> inv (set_host s h).
Proof. intros s h [H1 H2 H3 H4]. constructor; cbn; assumption. Qed.
Lemma inv_slots : forall s h, inv s -> inv (set_slots s h).
Proof. intros s h [H1 H2 H3 H4]. constructor; cbn; assumption. Qed.
Lemma inv_kv : forall s h, inv s -> inv (set_kv s h).
Proof. intros s h [H1 H2 H3 H4]. constructor; cbn; assumption. Qed.

Lemma checked_now : forall s tid, inv s -> st_status s = Normal -> checked tid (st_log s ++ [ECheck tid]).
Proof.
  intros s tid HI Hn. destruct (i_phase s HI) as [p [Hp Hs]]. rewrite Hn in Hs. destruct p; try contradiction.
  exists (st_log s), []. auto.
Qed.

Lemma inv_check : forall s tid p, inv s -> st_status s = Normal ->
  inv (goto (emit s (ECheck tid)) tid p).
Proof.
  intros s tid p HI Hn. pose proof (checked_now s tid HI Hn) as HC.
  assert (H' : inv (emit s (ECheck tid))).
  { rewrite <- (set_status_same s). apply inv_emit; [exact HI| |discriminate].
    destruct (i_phase s HI) as [q [Hq Hs]]. rewrite Hq. exists q. split; [destruct q; reflexivity|exact Hs]. }
  destruct H' as [H1 H2 H3 H4]. constructor; cbn in *; try assumption.
  - intros t id info H. apply nth_list_set in H as [[<- H]|[_ H]]; [exact HC|eauto].
  - intros t id H. apply nth_list_set in H as [[<- H]|[_ H]]; [exact HC|eauto].
Qed.

Lemma inv_operate : forall s tid p ok, inv s -> nth_error (st_threads s) tid = Some p -> inv (operate s tid p ok).
Proof.
  intros s tid p ok HI Hp. destruct (i_phase s HI) as [q [Hq Hs]].
  destruct p as [[d h sl|d m|id info|id|]|h sl|sl|id info|id|b]; cbn.
  - destruct (status_eqb (st_status s) Normal) eqn:E; [|apply inv_goto; [exact HI|discriminate|discriminate]].
    apply status_eqb_eq in E. rewrite E in Hs. destruct q; try contradiction.
    apply inv_goto; [|discriminate|discriminate]. apply inv_emit; [exact HI| |discriminate].
    rewrite Hq. cbn. eexists. split; [reflexivity|]. destruct d; exact I.
  - destruct (status_eqb (st_status s) (migrating d)) eqn:E; [|apply inv_goto; [exact HI|discriminate|discriminate]].
    apply status_eqb_eq in E. rewrite E in Hs.
    apply inv_goto; [|discriminate|discriminate]. apply inv_emit; [exact HI| |discriminate].
    rewrite Hq. exists Idle. split; [|exact I]. destruct d; destruct q as [|t []|]; try contradiction; reflexivity.
  - destruct (status_eqb (st_status s) Normal) eqn:E; [|apply inv_goto; [exact HI|discriminate|discriminate]].
    apply status_eqb_eq in E. apply inv_check; assumption.
  - destruct (status_eqb (st_status s) Normal) eqn:E; [|apply inv_goto; [exact HI|discriminate|discriminate]].
    apply status_eqb_eq in E. apply inv_check; assumption.
  - destruct (status_eqb (st_status s) Normal) eqn:E.
    + apply status_eqb_eq in E. rewrite E in Hs. destruct q; try contradiction.
      apply inv_goto; [|discriminate|discriminate]. apply inv_emit; [exact HI| |discriminate].
      rewrite Hq. exists Shut. split; [reflexivity|exact I].
    + destruct ok; [exact HI|]. apply inv_goto; [exact HI|discriminate|discriminate].
  - apply inv_goto; [apply inv_host; exact HI|discriminate|discriminate].
  - apply inv_goto; [apply inv_slots; exact HI|discriminate|discriminate].
  - destruct ok; [|apply inv_goto; [exact HI|discriminate|discriminate]].
    apply inv_goto; [|discriminate|discriminate].
    pose proof (inv_kv s (kv_put (st_kv s) id info) HI) as HK.
    rewrite <- (set_status_same (set_kv s _)). apply inv_emit; [exact HK| |].
    + cbn. rewrite Hq. exists q. split; [destruct q; reflexivity|exact Hs].
    + intros t [= <-]. cbn. eapply i_write; eassumption.
  - destruct ok; [|apply inv_goto; [exact HI|discriminate|discriminate]].
    apply inv_goto; [|discriminate|discriminate].
    pose proof (inv_kv s (kv_remove (st_kv s) id) HI) as HK.
    rewrite <- (set_status_same (set_kv s _)). apply inv_emit; [exact HK| |].
    + cbn. rewrite Hq. exists q. split; [destruct q; reflexivity|exact Hs].
    + intros t [= <-]. cbn. eapply i_delete; eassumption.
  - exact HI.
Qed.

Lemma inv_act : forall s a, inv s -> inv (act s a).
Proof.
  intros s [c|tid ok] HI; cbn.
  - destruct HI as [H1 H2 H3 H4]. constructor; cbn; try assumption.
    + intros t id info H. destruct (Nat.lt_ge_cases t (length (st_threads s))) as [L|L].
      * rewrite nth_error_app1 in H by exact L. eauto.
      * rewrite nth_error_app2 in H by exact L. destruct (t - length (st_threads s)) as [|[|n]]; discriminate.
    + intros t id H. destruct (Nat.lt_ge_cases t (length (st_threads s))) as [L|L].
      * rewrite nth_error_app1 in H by exact L. eauto.
      * rewrite nth_error_app2 in H by exact L. destruct (t - length (st_threads s)) as [|[|n]]; discriminate.
  - destruct (nth_error (st_threads s) tid) as [p|] eqn:E; [|exact HI]. apply inv_operate; assumption.
Qed.

Lemma inv_run : forall l s, inv s -> inv (run s l).
Proof. induction l as [|a l IH]; intros s H; [exact H|]. cbn. apply IH, inv_act, H. Qed.

Lemma run_app : forall s l l', run s (l ++ l') = run (run s l) l'.
Proof. intros s l l'. unfold run. apply fold_left_app. Qed.

(** ** What one action can change *)

Lemma act_kv : forall s a, st_kv (act s a) <> st_kv s ->
  exists tid, a = Step tid true /\ st_log (act s a) = st_log s ++ [ETable tid] /\
  st_status (act s a) = st_status s.
Proof.
  intros s [c|tid ok] H; cbn in *; [congruence|].
  destruct (nth_error (st_threads s) tid) as [p|] eqn:E; [|congruence].
  destruct p as [[d h sl|d m|id info|id|]|h sl|sl|id info|id|b]; cbn in *;
    try (destruct (status_eqb _ _); cbn in H; congruence); try congruence.
  - destruct (status_eqb _ _); [|destruct ok]; cbn in H; congruence.
  - destruct ok; cbn in *; [|congruence]. exists tid. auto.
  - destruct ok; cbn in *; [|congruence]. exists tid. auto.
Qed.

Lemma refused_start : forall s tid d h sl ok,
  nth_error (st_threads s) tid = Some (PCall (Ready d h sl)) -> st_status s <> Normal ->
  act s (Step tid ok) = goto s tid (PDone false).
Proof.
  intros s tid d h sl ok Hp Hn. cbn. rewrite Hp. cbn.
  destruct (status_eqb (st_status s) Normal) eqn:E; [apply status_eqb_eq in E; contradiction|reflexivity].
Qed.

Lemma refused_write : forall s tid c ok,
  nth_error (st_threads s) tid = Some (PCall c) -> st_status s <> Normal ->
  (exists id info, c = Save id info) \/ (exists id, c = Remove id) ->
  act s (Step tid ok) = goto s tid (PDone false).
Proof.
  intros s tid c ok Hp Hn Hc. cbn. rewrite Hp.
  destruct (status_eqb (st_status s) Normal) eqn:E; [apply status_eqb_eq in E; contradiction|].
  destruct Hc as [[id [info ->]]|[id ->]]; cbn; rewrite E; reflexivity.
Qed.

(** Without a call to finish, a migration never ends. *)
Definition finishes (d : direction) (p : pc) : Prop := exists m, p = PCall (Finish d m).
Lemma act_stuck : forall s a d, st_status s = migrating d -> (forall p, In p (st_threads s) -> ~ finishes d p) ->
  (forall m, a <> Invoke (Finish d m)) ->
  st_status (act s a) = migrating d /\ (forall p, In p (st_threads (act s a)) -> ~ finishes d p).
Proof.
  intros s a d Hs Hf Ha. destruct a as [c|tid ok]; cbn.
  - split; [exact Hs|]. intros p Hp [m ->]. apply in_app_or in Hp as [Hp|[Hp|[]]].
    + apply (Hf _ Hp). exists m. reflexivity.
    + injection Hp as ->. apply (Ha m). reflexivity.
  - destruct (nth_error (st_threads s) tid) as [p|] eqn:E; [|auto].
    assert (G : forall s' q, st_threads s' = st_threads s -> (forall m, q <> PCall (Finish d m)) ->
      forall p, In p (st_threads (goto s' tid q)) -> ~ finishes d p).
    { intros s' q Ht Hq r Hr [m ->]. cbn in Hr. apply In_nth_error in Hr as [n Hn].
      apply nth_list_set in Hn as [[_ Hn]|[_ Hn]]; [apply (Hq m); congruence|].
      rewrite Ht in Hn. apply nth_error_In in Hn. apply (Hf _ Hn). exists m. reflexivity. }
    assert (Hnn : status_eqb (migrating d) Normal = false) by (destruct d; reflexivity).
    destruct p as [[d' h sl|d' m|id info|id|]|h sl|sl|id info|id|b]; cbn; rewrite ?Hs, ?Hnn.
    + split; [first [exact Hs|reflexivity]|eapply G; [|discriminate]; reflexivity].
    + destruct (status_eqb (migrating d) (migrating d')) eqn:E2.
      * apply status_eqb_eq in E2. assert (d' = d) by (destruct d, d'; first [reflexivity | discriminate E2]). subst d'.
        apply nth_error_In in E. destruct (Hf _ E). exists m. reflexivity.
      * split; [first [exact Hs|reflexivity]|eapply G; [|discriminate]; reflexivity].
    + split; [first [exact Hs|reflexivity]|eapply G; [|discriminate]; reflexivity].
    + split; [first [exact Hs|reflexivity]|eapply G; [|discriminate]; reflexivity].
    + destruct ok; [auto|]. split; [first [exact Hs|reflexivity]|eapply G; [|discriminate]; reflexivity].
    + split; [first [exact Hs|reflexivity]|eapply G; [|discriminate]; reflexivity].
    + split; [first [exact Hs|reflexivity]|eapply G; [|discriminate]; reflexivity].
    + destruct ok; (split; [first [exact Hs|reflexivity]|eapply G; [|discriminate]; reflexivity]).
    + destruct ok; (split; [first [exact Hs|reflexivity]|eapply G; [|discriminate]; reflexivity]).
    + auto.
Qed.

Lemma run_stuck : forall l s d, st_status s = migrating d -> (forall p, In p (st_threads s) -> ~ finishes d p) ->
  (forall m, ~ In (Invoke (Finish d m)) l) -> st_status (run s l) = migrating d.
Proof.
  induction l as [|a l IH]; intros s d Hs Hf Hl; [exact Hs|]. cbn.
  destruct (act_stuck s a d Hs Hf) as [H1 H2].
  { intros m ->. apply (Hl m). left. reflexivity. }
  apply IH; [exact H1|exact H2|]. intros m Hin. apply (Hl m). right. exact Hin.
Qed.

(** ** Calls that run alone *)

Lemma nth_snoc : forall (A : Type) (l : list A) x, nth_error (l ++ [x]) (length l) = Some x.
Proof. intros A l x. rewrite nth_error_app2 by apply Nat.le_refl. rewrite Nat.sub_diag. reflexivity. Qed.

Lemma set_snoc : forall (A : Type) (l : list A) x y, list_set (l ++ [x]) (length l) y = l ++ [y].
Proof. induction l as [|a l IH]; intros x y; cbn; [reflexivity|]. rewrite IH. reflexivity. Qed.

Lemma run_invoke : forall st h sl kv th lg c l,
  run (mk_state st h sl kv th lg) (Invoke c :: l) = run (mk_state st h sl kv (th ++ [PCall c]) lg) l.
Proof. reflexivity. Qed.

Lemma run_step : forall st h sl kv th lg p ok l,
  run (mk_state st h sl kv (th ++ [p]) lg) (Step (length th) ok :: l) =
  run (operate (mk_state st h sl kv (th ++ [p]) lg) (length th) p ok) l.
Proof. intros. unfold run. cbn [fold_left act st_threads]. rewrite nth_snoc. reflexivity. Qed.

Lemma goto_last : forall st h sl kv th lg p q,
  goto (mk_state st h sl kv (th ++ [p]) lg) (length th) q = mk_state st h sl kv (th ++ [q]) lg.
Proof. intros. unfold goto, set_threads. cbn [st_threads st_status st_host st_slots st_kv st_log]. rewrite set_snoc. reflexivity. Qed.

Local Ltac go := unfold exec; cbn [st_threads length]; rewrite run_invoke;
  repeat (rewrite run_step;
          cbn [operate set_status set_host set_slots set_kv emit st_status st_host st_slots st_kv st_log st_threads];
          repeat match goal with H : status_eqb _ _ = _ |- _ => rewrite H end;
          unfold emit, set_status, set_host, set_slots, set_kv;
          cbn [operate set_status set_host set_slots set_kv emit st_status st_host st_slots st_kv st_log st_threads];
          rewrite ?goto_last);
  cbn [run fold_left]; rewrite <- ?app_assoc; try reflexivity.

Lemma exec_ready : forall st h sl kv th lg d h' sl' ok,
  exec (mk_state st h sl kv th lg) (Ready d h' sl') ok =
  if status_eqb st Normal
  then mk_state (migrating d) h' sl' kv (th ++ [PDone true]) (lg ++ [EStart (length th) d h' sl'])
  else mk_state st h sl kv (th ++ [PDone false]) lg.
Proof.
  intros st h sl kv th lg d h' sl' ok. destruct ok; destruct (status_eqb st Normal) eqn:E; go.
Qed.

Lemma exec_finish : forall st h sl kv th lg d m ok,
  exec (mk_state st h sl kv th lg) (Finish d m) ok =
  if status_eqb st (migrating d)
  then mk_state Normal [] [] kv (th ++ [PDone true]) (lg ++ [EFinish (length th) d m])
  else mk_state st h sl kv (th ++ [PDone false]) lg.
Proof.
  intros st h sl kv th lg d m ok. destruct ok; destruct (status_eqb st (migrating d)) eqn:E; go.
Qed.

Lemma exec_save : forall st h sl kv th lg id info ok,
  exec (mk_state st h sl kv th lg) (Save id info) ok =
  if status_eqb st Normal
  then if ok then mk_state st h sl (kv_put kv id info) (th ++ [PDone true]) (lg ++ [ECheck (length th)] ++ [ETable (length th)])
       else mk_state st h sl kv (th ++ [PDone false]) (lg ++ [ECheck (length th)])
  else mk_state st h sl kv (th ++ [PDone false]) lg.
Proof.
  intros st h sl kv th lg id info ok. destruct ok; destruct (status_eqb st Normal) eqn:E; go.
Qed.

Lemma exec_remove : forall st h sl kv th lg id ok,
  exec (mk_state st h sl kv th lg) (Remove id) ok =
  if status_eqb st Normal
  then if ok then mk_state st h sl (kv_remove kv id) (th ++ [PDone true]) (lg ++ [ECheck (length th)] ++ [ETable (length th)])
       else mk_state st h sl kv (th ++ [PDone false]) (lg ++ [ECheck (length th)])
  else mk_state st h sl kv (th ++ [PDone false]) lg.
Proof.
  intros st h sl kv th lg id ok. destruct ok; destruct (status_eqb st Normal) eqn:E; go.
Qed.

Lemma exec_close : forall st h sl kv th lg,
  exec (mk_state st h sl kv th lg) Close false =
  if status_eqb st Normal
  then mk_state Closed h sl kv (th ++ [PDone true]) (lg ++ [EClose (length th)])
  else mk_state st h sl kv (th ++ [PDone false]) lg.
Proof.
  intros st h sl kv th lg. destruct (status_eqb st Normal) eqn:E; go.
Qed.

Lemma last_start_app : forall l l', last_start (l ++ l') =
  match last_start l' with Some x => Some x | None => last_start l end.
Proof.
  induction l as [|e l IH]; intros l'; cbn; [destruct (last_start l'); reflexivity|].
  destruct e; rewrite IH; try reflexivity. destruct (last_start l'); reflexivity.
Qed.

Record sinv (s : state) : Prop := {
  s_inv : exists p, phase_of (st_log s) = Some p /\ stands_for (st_status s) p;
  s_fields : fields_ok s;
  s_quiet : quiet s;
  s_table : forall l1 tid l2, st_log s = l1 ++ ETable tid :: l2 -> phase_of l1 = Some Idle }.

Lemma quiet_snoc : forall th ok, (forall p, In p th -> exists b, p = PDone b) ->
  forall p, In p (th ++ [PDone ok]) -> exists b, p = PDone b.
Proof. intros th ok H p Hp. apply in_app_or in Hp as [Hp|[<-|[]]]; eauto. Qed.

Lemma sinv_exec1 : forall s co, sinv s -> sinv (exec1 s co).
Proof.
  intros [st h sl kv th lg] [c ok] [[p [Hp Hs]] HF HQ HT]. unfold quiet, fields_ok in *. cbn in *.
  assert (Refuse : sinv (mk_state st h sl kv (th ++ [PDone false]) lg)).
  { constructor; cbn; [exists p; auto|exact HF|exact (quiet_snoc _ _ HQ)|exact HT]. }
  destruct c as [d h' sl'|d m|id info|id|]; unfold exec1; cbn [fst snd].
  - rewrite exec_ready. destruct (status_eqb st Normal) eqn:E; [|exact Refuse].
    apply status_eqb_eq in E. subst st. destruct p; try contradiction. constructor; cbn.
    + rewrite phase_app, Hp. cbn. eexists. split; [reflexivity|]. destruct d; exact I.
    + unfold fields_ok. cbn. rewrite last_start_app. cbn. destruct d; reflexivity.
    + exact (quiet_snoc _ _ HQ).
    + intros l1 t l2 H. apply snoc_split in H as [[_ [H _]]|[l2' [_ H]]]; [discriminate|eauto].
  - rewrite exec_finish. destruct (status_eqb st (migrating d)) eqn:E; [|exact Refuse].
    apply status_eqb_eq in E. subst st. constructor; cbn.
    + rewrite phase_app, Hp. exists Idle. split; [|exact I].
      destruct d; destruct p as [|t []|]; try contradiction; reflexivity.
    + split; reflexivity.
    + exact (quiet_snoc _ _ HQ).
    + intros l1 t l2 H. apply snoc_split in H as [[_ [H _]]|[l2' [_ H]]]; [discriminate|eauto].
  - rewrite exec_save. destruct (status_eqb st Normal) eqn:E; [|exact Refuse].
    apply status_eqb_eq in E. subst st. destruct p; try contradiction.
    assert (HC : forall l1 t l2, lg ++ [ECheck (length th)] = l1 ++ ETable t :: l2 -> phase_of l1 = Some Idle).
    { intros l1 t l2 H. apply snoc_split in H as [[_ [H _]]|[l2' [_ H]]]; [discriminate|eauto]. }
    assert (HP : phase_of (lg ++ [ECheck (length th)]) = Some Idle) by (rewrite phase_app, Hp; reflexivity).
    destruct ok; constructor; cbn.
    + change [ECheck (length th); ETable (length th)] with ([ECheck (length th)] ++ [ETable (length th)]).
      rewrite app_assoc, phase_app, HP. exists Idle. split; reflexivity.
    + exact HF.
    + exact (quiet_snoc _ _ HQ).
    + intros l1 t l2 H. change [ECheck (length th); ETable (length th)] with ([ECheck (length th)] ++ [ETable (length th)]) in H.
      rewrite app_assoc in H. apply snoc_split in H as [[_ [_ ->]]|[l2' [_ H]]]; [exact HP|eauto].
    + exists Idle. split; [exact HP|exact I].
    + exact HF.
    + exact (quiet_snoc _ _ HQ).
    + exact HC.
  - rewrite exec_remove. destruct (status_eqb st Normal) eqn:E; [|exact Refuse].
    apply status_eqb_eq in E. subst st. destruct p; try contradiction.
    assert (HC : forall l1 t l2, lg ++ [ECheck (length th)] = l1 ++ ETable t :: l2 -> phase_of l1 = Some Idle).
    { intros l1 t l2 H. apply snoc_split in H as [[_ [H _]]|[l2' [_ H]]]; [discriminate|eauto]. }
    assert (HP : phase_of (lg ++ [ECheck (length th)]) = Some Idle) by (rewrite phase_app, Hp; reflexivity).
    destruct ok; constructor; cbn.
    + change [ECheck (length th); ETable (length th)] with ([ECheck (length th)] ++ [ETable (length th)]).
      rewrite app_assoc, phase_app, HP. exists Idle. split; reflexivity.
    + exact HF.
    + exact (quiet_snoc _ _ HQ).
    + intros l1 t l2 H. change [ECheck (length th); ETable (length th)] with ([ECheck (length th)] ++ [ETable (length th)]) in H.
      rewrite app_assoc in H. apply snoc_split in H as [[_ [_ ->]]|[l2' [_ H]]]; [exact HP|eauto].
    + exists Idle. split; [exact HP|exact I].
    + exact HF.
    + exact (quiet_snoc _ _ HQ).
    + exact HC.
  - rewrite exec_close. destruct (status_eqb st Normal) eqn:E; [|exact Refuse].
    apply status_eqb_eq in E. subst st. destruct p; try contradiction. constructor; cbn.
    + rewrite phase_app, Hp. exists Shut. split; [reflexivity|exact I].
    + exact HF.
    + exact (quiet_snoc _ _ HQ).
    + intros l1 t l2 H. apply snoc_split in H as [[_ [H _]]|[l2' [_ H]]]; [discriminate|eauto].
Qed.

Lemma sinv_all : forall l s, sinv s -> sinv (exec_all s l).
Proof. induction l as [|c l IH]; intros s H; [exact H|]. apply IH, sinv_exec1, H. Qed.

Lemma sinv_init : forall kv, sinv (init kv).
Proof.
  intros kv. constructor; cbn.
  - exists Idle. split; reflexivity.
  - split; reflexivity.
  - intros p [].
  - intros [|? l1] tid l2 H; discriminate.
Qed.

Lemma returned_snoc : forall st h sl kv th lg ok, returned (mk_state st h sl kv (th ++ [PDone ok]) lg) = ok.
Proof. intros. unfold returned. cbn [st_threads]. rewrite last_last. reflexivity. Qed.

(** [StartMigration] running alone leaves the status as it was, and touches the
    table only when everything went well. *)
Lemma start_migration_alone : forall s host slots prepared moved found rest saved id sid,
  st_status (start_migration s host slots prepared moved found rest saved id sid) = st_status s /\
  st_kv (start_migration s host slots prepared moved found rest saved id sid) =
    match found with
    | Some cur => if prepared && moved && saved && status_eqb (st_status s) Normal
                  then kv_put (st_kv s) id (sid, rest cur) else st_kv s
    | None => st_kv s
    end.
Proof.
  intros [st h sl kv th lg] host slots prepared moved found rest saved id sid. unfold start_migration.
  destruct prepared; cbn [negb andb]; [|destruct found; auto].
  rewrite exec_ready. cbn [st_status st_kv st_threads st_log]. destruct (status_eqb st Normal) eqn:E.
  - apply status_eqb_eq in E. subst st. rewrite !returned_snoc.
    cbn [negb get_migrate st_status st_host st_slots migrating status_eqb andb].
    rewrite str_eqb_refl. destruct moved; cbn [negb andb].
    + rewrite exec_finish. cbn [st_status st_kv migrating status_eqb].
      destruct found as [cur|].
      * rewrite exec_save. cbn [status_eqb]. destruct saved; rewrite exec_finish; cbn; auto.
      * rewrite exec_finish. cbn. auto.
    + rewrite exec_finish. cbn. destruct found; auto.
  - rewrite !returned_snoc. cbn. rewrite andb_false_r. destruct found; auto.
Qed.
