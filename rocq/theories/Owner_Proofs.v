From Verif Require Import Str_Spec Str_Proofs HashSlot_Model HashSlot_Spec HashSlot_Proofs Owner_Model Owner_Spec.
From Coq Require Import ZifyBool ZifyNat.
Local Notation length := List.length.
Local Open Scope list_scope.
Local Open Scope Z_scope.

(** ** Association lists *)

Lemma map_set_fresh : forall m k v, ~ In k (map fst m) -> map_set m k v = m ++ [(k, v)].
Proof.
  induction m as [|[k' w] m IH]; intros k v H; [reflexivity|]. cbn in *.
  destruct (str_eq_dec k' k) as [->|]; [tauto|]. rewrite IH by tauto. reflexivity.
Qed.

Lemma slots_map_fold : forall (kv : etcd) m, NoDup (map fst m ++ map (fun gi : str * (str * list str) => fst (snd gi)) kv) ->
  fold_left (fun m gi => map_set m (fst (snd gi)) (snd (snd gi))) kv m = m ++ map snd kv.
Proof.
  induction kv as [|[g [sid sl]] kv IH]; intros m H; cbn; [symmetry; apply app_nil_r|].
  cbn in H. pose proof (NoDup_remove_2 _ _ _ H) as Hn.
  rewrite map_set_fresh by (intros Hc; apply Hn, in_or_app; auto).
  rewrite IH; [rewrite <- app_assoc; reflexivity|].
  rewrite map_app. cbn. rewrite <- app_assoc. exact H.
Qed.

Lemma slots_map_nodup : forall kv : etcd, NoDup (map (fun gi => fst (snd gi)) kv) -> slots_map kv = map snd kv.
Proof. intros kv H. unfold slots_map. rewrite slots_map_fold by exact H. reflexivity. Qed.

Lemma kv_get_in : forall kv g v, NoDup (map fst kv) -> (kv_get kv g = Some v <-> In (g, v) kv).
Proof.
  induction kv as [|[k w] kv IH]; intros g v Hn; cbn; [split; [discriminate|intros []]|].
  inversion Hn as [|? ? Hk Hn']; subst. destruct (str_eq_dec k g) as [->|Hne].
  - split; [intros [= ->]; auto|]. intros [[= ->]|Hin]; [reflexivity|].
    destruct Hk. apply (in_map fst) in Hin. exact Hin.
  - rewrite (IH g v Hn'). split; [auto|]. intros [[= -> _]|H]; [congruence|exact H].
Qed.

Lemma kv_put_fst : forall kv g v, In g (map fst kv) -> map fst (kv_put kv g v) = map fst kv.
Proof.
  induction kv as [|[k w] kv IH]; intros g v H; [destruct H|]. cbn in *.
  destruct (str_eq_dec k g) as [->|Hne]; [reflexivity|]. cbn. rewrite IH; [reflexivity|].
  destruct H as [H|H]; [contradiction|exact H].
Qed.

Lemma kv_put_in : forall kv g v g' w, NoDup (map fst kv) -> In g (map fst kv) ->
  (In (g', w) (kv_put kv g v) <-> (g' = g /\ w = v) \/ (g' <> g /\ In (g', w) kv)).
Proof.
  induction kv as [|[k u] kv IH]; intros g v g' w Hn H; [destruct H|].
  inversion Hn as [|? ? Hk Hn']; subst. cbn. destruct (str_eq_dec k g) as [->|Hne].
  - cbn. split.
    + intros [[= -> ->]|Hin]; [auto|]. right. split; [|auto]. intros ->.
      apply Hk. apply (in_map fst) in Hin. exact Hin.
    + intros [[-> ->]|[Hg [[= -> _]|Hin]]]; [auto|congruence|auto].
  - cbn in H. destruct H as [H|H]; [contradiction|]. cbn. rewrite (IH g v g' w Hn' H). split.
    + intros [[= -> ->]|[H1|[H1 H2]]]; auto.
    + intros [H1|[H1 [[= -> ->]|H2]]]; auto.
Qed.

Lemma kv_put_servers : forall (kv : etcd) g v u, NoDup (map fst kv) -> In (g, u) kv -> fst u = fst v ->
  map (fun gi => fst (snd gi)) (kv_put kv g v) = map (fun gi => fst (snd gi)) kv.
Proof.
  induction kv as [|[k w] kv IH]; intros g v u Hn H Hu; [destruct H|].
  inversion Hn as [|? ? Hk Hn']; subst. cbn. destruct (str_eq_dec k g) as [->|Hne].
  - destruct H as [[= ->]|Hin]; [cbn; congruence|].
    destruct Hk. apply (in_map fst) in Hin. exact Hin.
  - destruct H as [[= -> _]|Hin]; [congruence|]. cbn. erewrite IH by eassumption. reflexivity.
Qed.

(** ** Named slots and edges *)

Lemma named_f : forall slots s,
  named slots s <-> exists t a b, In t slots /\ format_int t = Some (a, b) /\ a <= s < b.
Proof.
  intros slots s. unfold named. split; intros [t [a [b [H1 [H2 H3]]]]]; exists t, a, b;
    (split; [exact H1|split; [apply format_int_iff; exact H2|exact H3]]).
Qed.

Lemma wrap_original_covered : forall slots v es, wrap_slots_original slots v = Some es ->
  forall s, covered es s <-> named slots s.
Proof.
  intros slots v es H s. destruct (wrap_slots_original_spec slots v es H) as [H1 _].
  rewrite named_f. unfold covered, contains. split.
  - intros [e [He Hs]]. apply (in_map (fun e => Some (e_start e, e_end e))) in He. rewrite H1 in He.
    apply in_map_iff in He as [t [Ht Hin]]. exists t, (e_start e), (e_end e). auto.
  - intros [t [a [b [Hin [Ht Hs]]]]]. apply (in_map format_int) in Hin. rewrite <- H1, Ht in Hin.
    apply in_map_iff in Hin as [e [[= He1 He2] Hin]]. exists e. split; [exact Hin|lia].
Qed.

(** The ranges of a list of texts, whatever owner they are tagged with. *)
Lemma wrap_original_retag : forall slots v w es, wrap_slots_original slots v = Some es ->
  exists es', wrap_slots_original slots w = Some es' /\
    map (fun e => (e_start e, e_end e)) es' = map (fun e => (e_start e, e_end e)) es.
Proof.
  induction slots as [|t slots IH]; cbn; intros v w es H.
  - injection H as <-. exists []. auto.
  - destruct (format_int t) as [[a b]|]; [|discriminate].
    destruct (wrap_slots_original slots v) as [es1|] eqn:E; [|discriminate]. injection H as <-.
    destruct (IH v w es1 E) as [es' [H1 H2]]. rewrite H1. eexists. split; [reflexivity|]. cbn. rewrite H2. reflexivity.
Qed.

Lemma same_ranges_disj : forall l l', map (fun e => (e_start e, e_end e)) l = map (fun e => (e_start e, e_end e)) l' ->
  all_disj l -> all_disj l'.
Proof.
  induction l as [|e l IH]; intros [|e' l'] H HD; try discriminate; [exact I|].
  cbn in H. injection H as H1 H2 H3. cbn in *. destruct HD as [HF HD]. split; [|apply IH; assumption].
  rewrite Forall_forall in *. intros x Hx s Hs1 Hs2.
  apply (in_map (fun e => (e_start e, e_end e))) in Hx. rewrite <- H3 in Hx.
  apply in_map_iff in Hx as [y [Hy Hin]]. injection Hy as Hy1 Hy2.
  apply (HF y Hin s); unfold contains in *; lia.
Qed.

Lemma same_ranges_nonempty : forall l l', map (fun e => (e_start e, e_end e)) l = map (fun e => (e_start e, e_end e)) l' ->
  nonempty l -> nonempty l'.
Proof.
  intros l l' H Hn x Hx. apply (in_map (fun e => (e_start e, e_end e))) in Hx. rewrite <- H in Hx.
  apply in_map_iff in Hx as [y [Hy Hin]]. injection Hy as Hy1 Hy2. specialize (Hn y Hin). lia.
Qed.

(** Texts that are well-formed, non-empty and disjoint. *)
Definition good_texts (slots : list str) : Prop :=
  exists v es, wrap_slots_original slots v = Some es /\ nonempty es /\ all_disj es.

Lemma edges_of_good : forall sort slots, is_sorter sort -> good_texts slots ->
  nonempty (edges_of sort slots) /\ ascending (edges_of sort slots) /\
  (forall s, covered (edges_of sort slots) s <-> named slots s).
Proof.
  intros sort slots HS [v [es [Hw [Hn HD]]]].
  destruct (wrap_original_retag slots v [] es Hw) as [es' [Hw' Hr]].
  assert (Hn' : nonempty es') by (eapply same_ranges_nonempty; [symmetry; exact Hr|exact Hn]).
  assert (HD' : all_disj es') by (eapply same_ranges_disj; [symmetry; exact Hr|exact HD]).
  unfold edges_of, wrap_slots_to_edges. rewrite Hw'. unfold sort_and_validate.
  destruct (HS es') as [HP HSo].
  assert (V : validate_loop None (sort es') = true).
  { apply (sort_validate_iff sort es' HS). split; [exact Hn'|]. apply all_disj_iff. exact HD'. }
  apply validate_iff in V as [V1 V2]. split; [exact V1|]. split; [exact V2|]. intros s.
  rewrite <- (wrap_original_covered slots [] es' Hw' s). split; apply covered_perm; [symmetry|]; exact HP.
Qed.

Lemma named_bounds : forall slots s, named slots s -> 0 <= s < int64_max.
Proof. intros slots s [t [a [b [_ [[x [y H]] Hs]]]]]. lia. Qed.

Lemma bounded_edges : forall l, nonempty l -> (forall s, covered l s -> 0 <= s < int64_max) ->
  forall e, In e l -> 0 <= e_start e <= int64_max /\ 0 <= e_end e <= int64_max.
Proof.
  intros l Hn Hb e He. specialize (Hn e He).
  pose proof (Hb (e_start e) (ex_intro _ e (conj He (conj (Z.le_refl _) Hn)))).
  assert (covered l (e_end e - 1)) by (exists e; split; [exact He|unfold contains; lia]).
  specialize (Hb _ H0). lia.
Qed.

Definition retag (v : str) (e : edge) : edge := mkEdge (e_start e) (e_end e) v.

Lemma edge_strings_retag : forall v l, edge_strings (map (retag v) l) = edge_strings l.
Proof. intros v l. unfold edge_strings. rewrite map_map. apply map_ext. intros []. reflexivity. Qed.

Lemma edge_strings_wrap : forall v l, nonempty l -> (forall s, covered l s -> 0 <= s < int64_max) ->
  wrap_slots_original (edge_strings l) v = Some (map (retag v) l).
Proof.
  intros v l Hn Hb. rewrite <- (edge_strings_retag v l). apply edge_strings_roundtrip.
  intros e He. apply in_map_iff in He as [x [<- Hx]]. cbn [retag e_start e_end e_value].
  destruct (bounded_edges l Hn Hb x Hx) as [B1 B2]. split; [exact B1|split; [exact B2|reflexivity]].
Qed.

Lemma retag_ranges : forall v l, map (fun e => (e_start e, e_end e)) (map (retag v) l) = map (fun e => (e_start e, e_end e)) l.
Proof. intros v l. rewrite map_map. reflexivity. Qed.

Lemma edge_strings_good : forall l, nonempty l -> all_disj l -> (forall s, covered l s -> 0 <= s < int64_max) ->
  good_texts (edge_strings l) /\ (forall s, named (edge_strings l) s <-> covered l s).
Proof.
  intros l Hn HD Hb. pose proof (edge_strings_wrap [] l Hn Hb) as Hw.
  split.
  - exists [], (map (retag []) l). split; [exact Hw|]. split.
    + eapply same_ranges_nonempty; [symmetry; apply retag_ranges|exact Hn].
    + eapply same_ranges_disj; [symmetry; apply retag_ranges|exact HD].
  - intros s. rewrite <- (wrap_original_covered _ _ _ Hw s). unfold covered, contains. split.
    + intros [e [He Hs]]. apply in_map_iff in He as [x [<- Hx]]. exists x. auto.
    + intros [e [He Hs]]. exists (retag [] e). split; [apply in_map; exact He|exact Hs].
Qed.

Lemma slots_removed_named : forall sort cur del, is_sorter sort -> good_texts cur -> good_texts del ->
  good_texts (slots_removed sort cur del) /\
  (forall s, named (slots_removed sort cur del) s <-> named cur s /\ ~ named del s).
Proof.
  intros sort cur del HS Hc Hd.
  destruct (edges_of_good sort cur HS Hc) as [C1 [C2 C3]].
  destruct (edges_of_good sort del HS Hd) as [D1 [D2 D3]].
  destruct (remove_edges_wf (edges_of sort del) (edges_of sort cur)) as [R1 R2]; [|assumption|assumption|].
  { intros d Hin. specialize (D1 d Hin). lia. }
  assert (Hcov : forall s, covered (remove_edges (edges_of sort cur) (edges_of sort del)) s <-> named cur s /\ ~ named del s).
  { intros s. rewrite <- C3, <- D3, !holds_covered_iff. split.
    - intros [v Hv]. apply remove_edges_holds in Hv as [Hv Hn]. split; [eauto|].
      intros Hc'. apply Hn. apply holds_covered_iff. exact Hc'.
    - intros [[v Hv] Hn]. exists v. apply remove_edges_holds. split; [exact Hv|]. intros Hc'. apply Hn.
      apply holds_covered_iff. exact Hc'. }
  destruct (edge_strings_good (remove_edges (edges_of sort cur) (edges_of sort del)) R1) as [E1 E2].
  { apply ascending_nonempty_disj; assumption. }
  { intros s Hs. apply Hcov in Hs as [Hs _]. eapply named_bounds; exact Hs. }
  split; [exact E1|]. intros s. unfold slots_removed. rewrite E2. apply Hcov.
Qed.

Lemma slots_added_named : forall sort cur new, is_sorter sort -> good_texts cur -> good_texts new ->
  good_texts (slots_added sort cur new) /\
  (forall s, named (slots_added sort cur new) s <-> named cur s \/ named new s).
Proof.
  intros sort cur new HS Hc Hd.
  destruct (edges_of_good sort cur HS Hc) as [C1 [C2 C3]].
  destruct (edges_of_good sort new HS Hd) as [D1 [D2 D3]].
  destruct (combine_edges_correct sort (edges_of sort cur) (edges_of sort new) HS C1 D1) as [R1 [R2 [R3 _]]].
  destruct (edge_strings_good _ R1) as [E1 E2].
  { apply ascending_nonempty_disj; [assumption|]. apply separated_ascending. exact R2. }
  { intros s Hs. apply R3 in Hs as [Hs|Hs]; [apply C3 in Hs|apply D3 in Hs]; eapply named_bounds; exact Hs. }
  split; [exact E1|]. intros s. unfold slots_added. rewrite E2, R3, C3, D3. reflexivity.
Qed.

(** ** Tables *)

Lemma all_disj_app : forall l l', all_disj (l ++ l') <->
  all_disj l /\ all_disj l' /\ (forall s, covered l s -> covered l' s -> False).
Proof.
  induction l as [|e l IH]; intros l'; cbn.
  - split; [|tauto]. intros H. repeat split; [exact H|]. intros s [x [[] _]].
  - rewrite IH, Forall_app. split.
    + intros [[H1 H2] [H3 [H4 H5]]]. repeat split; try assumption.
      intros s Hs Hs'. apply covered_cons in Hs as [Hs|Hs]; [|eauto].
      destruct Hs' as [x [Hx Hc]]. rewrite Forall_forall in H2. exact (H2 x Hx s Hs Hc).
    + intros [[H1 H2] [H3 H4]]. repeat split; try assumption.
      * apply Forall_forall. intros x Hx s Hs Hs'. apply (H4 s); [apply covered_cons; auto|exists x; auto].
      * intros s Hs Hs'. apply (H4 s); [apply covered_cons; auto|exact Hs'].
Qed.

(** A table of texts is accepted iff each owner's texts are good and no slot is
    named by two owners (at two positions). *)
Fixpoint cross (l : list (str * list str)) : Prop :=
  match l with
  | [] => True
  | (v, slots) :: r => (forall s w sl, named slots s -> In (w, sl) r -> named sl s -> False) /\ cross r
  end.

Lemma wrap_all_covered : forall tbl es, wrap_all tbl = Some es ->
  forall s, covered es s <-> exists v sl, In (v, sl) tbl /\ named sl s.
Proof.
  induction tbl as [|[v slots] tbl IH]; cbn; intros es H s.
  - injection H as <-. split; [intros [x [[] _]]|intros [v [sl [[] _]]]].
  - destruct (wrap_slots_original slots v) as [e1|] eqn:E1; [|discriminate].
    destruct (wrap_all tbl) as [e2|]; [|discriminate]. injection H as <-.
    rewrite covered_app, (wrap_original_covered _ _ _ E1 s), (IH _ eq_refl s). split.
    + intros [H|[w [sl [H1 H2]]]]; [exists v, slots|exists w, sl]; auto.
    + intros [w [sl [[[= -> ->]|Hin] Hs]]]; [auto|right; exists w, sl; auto].
Qed.

Lemma wrap_all_good : forall tbl,
  (exists es, wrap_all tbl = Some es /\ nonempty es /\ all_disj es) <->
  (forall v sl, In (v, sl) tbl -> good_texts sl) /\ cross tbl.
Proof.
  induction tbl as [|[v slots] tbl IH]; cbn.
  - split; [intros _; split; [intros v sl []|exact I]|].
    intros _. exists []. split; [reflexivity|]. split; [intros e []|exact I].
  - split.
    + intros [es [H [Hn HD]]].
      destruct (wrap_slots_original slots v) as [e1|] eqn:E1; [|discriminate].
      destruct (wrap_all tbl) as [e2|] eqn:E2; [|discriminate]. injection H as <-.
      apply all_disj_app in HD as [D1 [D2 D3]].
      destruct (proj1 IH) as [I1 I2].
      { exists e2. split; [reflexivity|]. split; [|exact D2]. intros e He. apply Hn, in_or_app. auto. }
      split; [|split; [|exact I2]].
      * intros w sl [[= <- <-]|Hin]; [|eapply I1; exact Hin]. exists v, e1. split; [exact E1|].
        split; [|exact D1]. intros e He. apply Hn, in_or_app. auto.
      * intros s w sl H1 H2 H3. apply (D3 s).
        -- apply (wrap_original_covered _ _ _ E1). exact H1.
        -- apply (wrap_all_covered _ _ E2). eauto.
    + intros [HG [HX HC]]. destruct (proj2 IH) as [e2 [E2 [N2 D2]]].
      { split; [|exact HC]. intros w sl Hin. eapply HG. right. exact Hin. }
      destruct (HG v slots (or_introl eq_refl)) as [u [e0 [E0 [N0 D0]]]].
      destruct (wrap_original_retag _ _ v _ E0) as [e1 [E1 Hr]].
      rewrite E1, E2. eexists. split; [reflexivity|]. split.
      * intros e He. apply in_app_or in He as [He|He]; [|auto].
        eapply same_ranges_nonempty; [symmetry; exact Hr|exact N0|exact He].
      * apply all_disj_app. split; [|split; [exact D2|]].
        -- eapply same_ranges_disj; [symmetry; exact Hr|exact D0].
        -- intros s H1 H2. apply (wrap_original_covered _ _ _ E1) in H1.
           apply (wrap_all_covered _ _ E2) in H2 as [w [sl [H2 H3]]]. eapply HX; eassumption.
Qed.

Lemma wrap_slots_good : forall sort tbl, is_sorter sort ->
  ((exists res, wrap_slots sort tbl = Some res) <->
   tbl <> [] /\ (forall v sl, In (v, sl) tbl -> good_texts sl) /\ cross tbl).
Proof.
  intros sort tbl HS. rewrite <- wrap_all_good. unfold wrap_slots. destruct tbl as [|p tbl].
  - split; [intros [res H]; discriminate|intros [H _]; congruence].
  - destruct (wrap_all (p :: tbl)) as [es|] eqn:E.
    + pose proof (sort_validate_iff sort es HS) as HV. unfold sort_and_validate in *. cbn [snd] in HV.
      destruct (validate_loop None (sort es)).
      * destruct (proj1 HV eq_refl) as [V1 V2]. split; [|eauto]. intros _. split; [discriminate|].
        exists es. split; [reflexivity|]. split; [exact V1|]. apply all_disj_iff. exact V2.
      * split; [intros [res H]; discriminate|]. intros [_ [es' [[= <-] [H1 H2]]]].
        apply all_disj_iff in H2. assert (false = true) by (apply HV; auto). discriminate.
    + split; [intros [res H]; discriminate|]. intros [_ [es' [H _]]]. discriminate.
Qed.

Lemma cross_map : forall kv : etcd, NoDup (map fst kv) ->
  (forall g v sl h w sm s, In (g, (v, sl)) kv -> In (h, (w, sm)) kv -> named sl s -> named sm s -> g = h) ->
  cross (map snd kv).
Proof.
  induction kv as [|[g [v sl]] kv IH]; cbn; intros Hn H; [exact I|].
  inversion Hn as [|? ? Hk Hn']; subst. split.
  - intros s w sm H1 Hin H2. apply in_map_iff in Hin as [[h [w' sm']] [[= <- <-] Hin]].
    assert (g = h) by (eapply H; [left; reflexivity|right; exact Hin|exact H1|exact H2]). subst h.
    apply Hk. apply (in_map fst) in Hin. exact Hin.
  - apply IH; [exact Hn'|]. intros. eapply H; eauto.
Qed.

Lemma owned_named : forall kv g s, owned kv g s <-> exists sid sl, In (g, (sid, sl)) kv /\ named sl s.
Proof.
  intros kv g s. unfold owned, named. split.
  - intros [sid [sl [t [a [b [H1 [H2 [H3 H4]]]]]]]]. exists sid, sl. split; [exact H1|]. exists t, a, b. auto.
  - intros [sid [sl [H1 [t [a [b [H2 [H3 H4]]]]]]]]. exists sid, sl, t, a, b. auto.
Qed.

Lemma nodup_inj : forall (A B : Type) (f : A -> B) l x y, NoDup (map f l) -> In x l -> In y l -> f x = f y -> x = y.
Proof.
  induction l as [|z l IH]; intros x y Hn Hx Hy He; [destruct Hx|].
  cbn in Hn. inversion Hn as [|? ? Hk Hn']; subst.
  destruct Hx as [<-|Hx]; destruct Hy as [<-|Hy]; auto.
  - destruct Hk. rewrite He. apply in_map. exact Hy.
  - destruct Hk. rewrite <- He. apply in_map. exact Hx.
Qed.

Section Tables.
Variable (sort : sorter).
Hypothesis HS : is_sorter sort.

Lemma table_holds : forall kv table v s, tables_ok sort kv table ->
  (holds table v s <-> exists g sl, In (g, (v, sl)) kv /\ named sl s).
Proof.
  intros kv table v s [H1 H2 H3]. unfold provider in H3. rewrite slots_map_nodup in H3 by exact H2.
  rewrite (wrap_slots_holds sort _ table v s HS H3). split.
  - intros [a [b [[sl [t [Hin [Ht Hf]]]] Hs]]]. apply in_map_iff in Hin as [[g [v' sl']] [[= -> ->] Hin]].
    exists g, sl. split; [exact Hin|]. apply named_f. exists t, a, b. auto.
  - intros [g [sl [Hin Hs]]]. apply named_f in Hs as [t [a [b [Ht [Hf Hs]]]]]. exists a, b. split; [|exact Hs].
    exists sl, t. split; [|auto]. apply (in_map snd) in Hin. exact Hin.
Qed.

Lemma table_wf : forall kv table, tables_ok sort kv table -> nonempty table /\ ascending table.
Proof.
  intros kv table [H1 H2 H3]. unfold provider in H3. rewrite slots_map_nodup in H3 by exact H2.
  destruct (wrap_slots_some sort _ table HS H3) as [A [B _]]. auto.
Qed.

Lemma table_good : forall kv table g v sl, tables_ok sort kv table -> In (g, (v, sl)) kv -> good_texts sl.
Proof.
  intros kv table g v sl [H1 H2 H3] Hin. unfold provider in H3. rewrite slots_map_nodup in H3 by exact H2.
  destruct (proj1 (wrap_slots_good sort (map snd kv) HS)) as [_ [HG _]]; [eauto|].
  eapply HG. apply (in_map snd) in Hin. exact Hin.
Qed.

(** Every slot has at most one owner. *)
Lemma single_owner : forall kv table g h s, tables_ok sort kv table -> owned kv g s -> owned kv h s -> g = h.
Proof.
  intros kv table g h s Hok Hg Hh.
  apply owned_named in Hg as [v [sl [Hg Hs]]]. apply owned_named in Hh as [w [sm [Hh Hs']]].
  destruct (table_wf kv table Hok) as [Hn HA].
  assert (A : holds table v s) by (apply (table_holds kv table v s Hok); eauto).
  assert (B : holds table w s) by (apply (table_holds kv table w s Hok); eauto).
  destruct A as [e [He [Hv Hc]]]. destruct B as [e' [He' [Hw Hc']]].
  assert (e = e') by (eapply ascending_unique; eassumption). subst e'.
  assert (Hvw : w = v) by congruence. rewrite Hvw in Hh.
  pose proof (to_servers _ _ _ Hok) as H2.
  assert (Heq : (g, (v, sl)) = (h, (v, sm))) by (eapply (nodup_inj _ _ (fun gi : str * (str * list str) => fst (snd gi))); [eassumption|eassumption|eassumption|reflexivity]). congruence.
Qed.

(** The converse: an etcd table with good texts and single owners is accepted. *)
Lemma tables_accept : forall kv : etcd, kv <> [] -> NoDup (map fst kv) -> NoDup (map (fun gi => fst (snd gi)) kv) ->
  (forall g v sl, In (g, (v, sl)) kv -> good_texts sl) ->
  (forall g h s, owned kv g s -> owned kv h s -> g = h) ->
  exists table, tables_ok sort kv table.
Proof.
  intros kv H0 H1 H2 HG HO.
  destruct (proj2 (wrap_slots_good sort (map snd kv) HS)) as [table Ht].
  { split; [intros He; apply map_eq_nil in He; contradiction|]. split.
    - intros v sl Hin. apply in_map_iff in Hin as [[g [v' sl']] [[= -> ->] Hin]]. eapply HG; exact Hin.
    - apply cross_map; [exact H1|]. intros g v sl h w sm s Ha Hb Hs Hs'.
      apply (HO g h s); apply owned_named; eauto. }
  exists table. constructor; try assumption. unfold provider. rewrite slots_map_nodup by exact H2. exact Ht.
Qed.

Lemma prepare_to_sound : forall kv table sid slots, tables_ok sort kv table ->
  prepare_to sort table sid slots = true ->
  good_texts slots /\ (forall s, named slots s -> holds table sid s).
Proof.
  intros kv table sid slots Hok H. destruct (table_wf kv table Hok) as [Hn HA].
  unfold prepare_to, wrap_slots_to_edges in H.
  destruct (wrap_slots_original slots sid) as [es|] eqn:E; [|discriminate].
  pose proof (sort_validate_iff sort es HS) as HV. unfold sort_and_validate in *. cbn [snd] in HV.
  destruct (validate_loop None (sort es)); [|discriminate].
  destruct (proj1 HV eq_refl) as [V1 V2]. split.
  - exists sid, es. split; [exact E|]. split; [exact V1|]. apply all_disj_iff. exact V2.
  - intros s Hs. apply (wrap_original_covered _ _ _ E) in Hs as [e [He Hc]].
    destruct (wrap_slots_original_spec _ _ _ E) as [_ Hval]. rewrite Forall_forall in Hval.
    rewrite <- (Hval e He). apply is_valid_edge_sound; try assumption; [apply V1; exact He|].
    rewrite forallb_forall in H. apply H. destruct (HS es) as [HP _]. eapply Permutation_in; eassumption.
Qed.

(** What the receiver's check excludes. *)
Lemma prepare_from_sound : forall kv table sid slots, tables_ok sort kv table ->
  prepare_from sort table sid slots = true ->
  forall t a b x, In t slots -> range_text t a b -> In x table -> e_value x = sid -> ~ (e_start x <= a /\ b <= e_end x).
Proof.
  intros kv table sid slots Hok H t a b x It Rt Ix Vx [B1 B2]. destruct (table_wf kv table Hok) as [Hn HA].
  unfold prepare_from, wrap_slots_to_edges in H.
  destruct (wrap_slots_original slots sid) as [es|] eqn:E; [|discriminate].
  pose proof (sort_validate_iff sort es HS) as HV. unfold sort_and_validate in *. cbn [snd] in HV.
  destruct (validate_loop None (sort es)); [|discriminate].
  destruct (proj1 HV eq_refl) as [V1 V2].
  destruct (wrap_slots_original_spec _ _ _ E) as [H1 Hval]. rewrite Forall_forall in Hval.
  apply (in_map format_int) in It. apply format_int_iff in Rt. rewrite <- H1, Rt in It.
  apply in_map_iff in It as [e [[= He1 He2] Hin]].
  rewrite forallb_forall in H. assert (In e (sort es)) as Is by (destruct (HS es) as [HP _]; eapply Permutation_in; eassumption).
  specialize (H e Is). apply negb_true_iff in H.
  assert (is_valid_edge e table = true) as T; [|congruence].
  apply (is_valid_edge_complete table e x); [apply V1; exact Hin|exact Hn|exact HA|exact Ix| |lia|lia].
  rewrite Vx. symmetry. apply Hval, Hin.
Qed.

Lemma migrate_checked : forall kv kvs ps kvr pr gs sids gr sidr slots f kv' r,
  tables_ok sort kvs ps -> tables_ok sort kvr pr ->
  migrate sort kv gs sids gr sidr ps pr slots f = (kv', r) -> r = Migrated \/ kv' <> kv ->
  (forall s, named slots s -> holds ps sids s) /\
  (forall t a b x, In t slots -> range_text t a b -> In x pr -> e_value x = sidr -> ~ (e_start x <= a /\ b <= e_end x)).
Proof.
  intros kv kvs ps kvr pr gs sids gr sidr slots f kv' r Hs Hr H C. unfold migrate in H.
  assert (Same : (kv, Failed) = (kv', r) -> False) by (intros [= <- <-]; destruct C; congruence).
  destruct (prepare_to sort ps sids slots) eqn:P1; cbn [negb] in H; [|destruct (Same H)].
  destruct (f_rpc f); [destruct (Same H)|]. cbn [orb] in H.
  destruct (prepare_from sort pr sidr slots) eqn:P2; cbn [negb] in H; [|destruct (Same H)].
  split; [apply (prepare_to_sound kvs ps sids slots Hs P1)|exact (prepare_from_sound kvr pr sidr slots Hr P2)].
Qed.

(** ** A migration that is not interrupted after the sender has written its table *)
Lemma migrate_conserves : forall kv table gs sids curs gr sidr curr slots f kv' r,
  tables_ok sort kv table ->
  In (gs, (sids, curs)) kv -> In (gr, (sidr, curr)) kv -> gs <> gr -> handed_over f ->
  migrate sort kv gs sids gr sidr table table slots f = (kv', r) ->
  (r = Failed -> kv' = kv) /\
  (r = Migrated ->
     (forall s, named slots s -> owned kv gs s) /\
     (forall g s, owned kv' g s <-> (g = gr /\ named slots s) \/ (~ named slots s /\ owned kv g s))) /\
  (exists table', tables_ok sort kv' table') /\
  map fst kv' = map fst kv /\
  map (fun gi => fst (snd gi)) kv' = map (fun gi => fst (snd gi)) kv.
Proof.
  intros kv table gs sids curs gr sidr curr slots f kv' r Hok Hs Hr Hne [F1 [F2 [F3 F4]]] H.
  unfold migrate in H.
  assert (Same : (kv, Failed) = (kv', r) -> (r = Failed -> kv' = kv) /\
    (r = Migrated ->
     (forall s, named slots s -> owned kv gs s) /\
     (forall g s, owned kv' g s <-> (g = gr /\ named slots s) \/ (~ named slots s /\ owned kv g s))) /\
    (exists table', tables_ok sort kv' table') /\ map fst kv' = map fst kv /\
    map (fun gi => fst (snd gi)) kv' = map (fun gi => fst (snd gi)) kv).
  { intros [= <- <-]. split; [auto|]. split; [discriminate|]. split; [eauto|]. auto. }
  destruct (prepare_to sort table sids slots) eqn:Hp; cbn [negb] in H; [|exact (Same H)].
  destruct (f_rpc f || negb (prepare_from sort table sidr slots)); [exact (Same H)|].
  destruct (f_not_normal f); [exact (Same H)|]. destruct (f_item f); [exact (Same H)|].
  pose proof (to_groups _ _ _ Hok) as Ng. pose proof (to_servers _ _ _ Hok) as Ns.
  rewrite (proj2 (kv_get_in kv gs (sids, curs) Ng) Hs) in H.
  destruct (f_sender_save f); [exact (Same H)|]. rewrite F1, F2, F3, F4 in H. cbn [orb] in H.
  set (v1 := (sids, slots_removed sort curs slots)) in *.
  assert (Hgs : In gs (map fst kv)) by (apply (in_map fst) in Hs; exact Hs).
  assert (Hgr : In gr (map fst kv)) by (apply (in_map fst) in Hr; exact Hr).
  assert (Ng1 : NoDup (map fst (kv_put kv gs v1))) by (rewrite kv_put_fst; assumption).
  assert (Hr1 : In (gr, (sidr, curr)) (kv_put kv gs v1)) by (apply kv_put_in; auto).
  rewrite (proj2 (kv_get_in _ gr (sidr, curr) Ng1) Hr1) in H.
  set (v2 := (sidr, slots_added sort curr slots)) in *.
  injection H as Hkv <-. split; [discriminate|].
  assert (Hgr1 : In gr (map fst (kv_put kv gs v1))) by (rewrite kv_put_fst; assumption).
  assert (Hfst : map fst kv' = map fst kv) by (rewrite <- Hkv, !kv_put_fst; auto).
  assert (Hsrv : map (fun gi => fst (snd gi)) kv' = map (fun gi => fst (snd gi)) kv).
  { rewrite <- Hkv. rewrite (kv_put_servers _ gr v2 (sidr, curr) Ng1 Hr1 eq_refl).
    apply (kv_put_servers _ gs v1 (sids, curs) Ng Hs eq_refl). }
  assert (Hin : forall g w, In (g, w) kv' <->
    (g = gr /\ w = v2) \/ (g = gs /\ w = v1) \/ (g <> gr /\ g <> gs /\ In (g, w) kv)).
  { intros g w. rewrite <- Hkv, kv_put_in by assumption. rewrite kv_put_in by assumption. split.
    - intros [Ha|[Ha [Hb|Hb]]]; tauto.
    - intros [Ha|[[-> ->]|Ha]]; tauto. }
  destruct (prepare_to_sound kv table sids slots Hok Hp) as [Gd Hheld].
  pose proof (table_good kv table _ _ _ Hok Hs) as Gs. pose proof (table_good kv table _ _ _ Hok Hr) as Gr.
  destruct (slots_removed_named sort curs slots HS Gs Gd) as [R1 R2].
  destruct (slots_added_named sort curr slots HS Gr Gd) as [A1 A2].
  assert (Hsend : forall s, named slots s -> owned kv gs s).
  { intros s Hn. apply (table_holds kv table sids s Hok) in Hheld; [|exact Hn].
    destruct Hheld as [g [sl [Hg Hsl]]].
    assert (Heq : (g, (sids, sl)) = (gs, (sids, curs))) by (eapply (nodup_inj _ _ (fun gi : str * (str * list str) => fst (snd gi))); [eassumption|eassumption|eassumption|reflexivity]).
    injection Heq as -> ->. apply owned_named. eauto. }
  assert (Dec : forall s, named slots s \/ ~ named slots s).
  { intros s. destruct Gd as [v [es [E _]]]. destruct (wrap_original_covered _ _ _ E s) as [Ha Hb].
    assert (D : covered es s \/ ~ covered es s).
    { clear. induction es as [|e es IH]; [right; intros [x [[] _]]|]. rewrite covered_cons.
      assert (contains e s \/ ~ contains e s) by (unfold contains; lia). tauto. }
    tauto. }
  assert (Hown : forall g s, owned kv' g s <-> (g = gr /\ named slots s) \/ (~ named slots s /\ owned kv g s)).
  { intros g s. rewrite (owned_named kv' g s). split.
    - intros [v [sl [Hi Hsl]]]. apply Hin in Hi as [[-> Hv]|[[-> Hv]|[H1 [H2 Hi]]]].
      + unfold v2 in Hv. injection Hv as -> ->. apply A2 in Hsl. destruct (Dec s) as [|Hd]; [auto|].
        right. split; [exact Hd|]. apply owned_named. exists sidr, curr. tauto.
      + unfold v1 in Hv. injection Hv as -> ->. apply R2 in Hsl as [H1 H2]. right. split; [exact H2|].
        apply owned_named. eauto.
      + right. assert (Ho : owned kv g s) by (apply owned_named; eauto). split; [|exact Ho].
        intros Hn. apply H2. eapply (single_owner kv table g gs s Hok Ho). apply Hsend. exact Hn.
    - intros [[-> Hn]|[Hn Ho]].
      + exists sidr, (slots_added sort curr slots). split; [apply Hin; left; auto|]. apply A2. auto.
      + apply owned_named in Ho as [v [sl [Hi Hsl]]].
        destruct (str_eq_dec g gr) as [->|Hg1].
        { exists sidr, (slots_added sort curr slots). split; [apply Hin; left; auto|]. apply A2. left.
          assert (Heq : (gr, (v, sl)) = (gr, (sidr, curr))) by (eapply (nodup_inj _ _ fst); [exact Ng|eassumption|eassumption|reflexivity]).
          injection Heq as -> ->. exact Hsl. }
        destruct (str_eq_dec g gs) as [->|Hg2].
        { exists sids, (slots_removed sort curs slots). split; [apply Hin; right; left; auto|]. apply R2.
          assert (Heq : (gs, (v, sl)) = (gs, (sids, curs))) by (eapply (nodup_inj _ _ fst); [exact Ng|eassumption|eassumption|reflexivity]).
          injection Heq as -> ->. auto. }
        exists v, sl. split; [apply Hin; auto|exact Hsl]. }
  split; [auto|]. split; [|auto].
  apply tables_accept.
  - intros ->. cbn in Hfst. rewrite <- Hfst in Hgs. destruct Hgs.
  - rewrite Hfst. exact Ng.
  - rewrite Hsrv. exact Ns.
  - intros g v sl Hi. apply Hin in Hi as [[_ Hv]|[[_ Hv]|[_ [_ Hi]]]].
    + unfold v2 in Hv. injection Hv as _ ->. exact A1.
    + unfold v1 in Hv. injection Hv as _ ->. exact R1.
    + eapply table_good; eassumption.
  - intros g h s Hg Hh. apply Hown in Hg, Hh.
    destruct Hg as [[-> Hg]|[Hg Hg']]; destruct Hh as [[-> Hh]|[Hh Hh']]; try tauto; try reflexivity.
    eapply single_owner; eassumption.
Qed.

End Tables.

(** ** Deciding ownership of concrete tables *)

Definition namedb (slots : list str) (s : Z) : bool :=
  existsb (fun t => match format_int t with Some (a, b) => (a <=? s) && (s <? b) | None => false end) slots.
Definition ownedb (kv : etcd) (s : Z) : list str :=
  map fst (filter (fun gi => namedb (snd (snd gi)) s) kv).

Lemma namedb_iff : forall slots s, namedb slots s = true <-> named slots s.
Proof.
  intros slots s. rewrite named_f. unfold namedb. rewrite existsb_exists. split.
  - intros [t [Hin H]]. destruct (format_int t) as [[a b]|] eqn:E; [|discriminate].
    exists t, a, b. split; [exact Hin|]. split; [exact E|]. lia.
  - intros [t [a [b [Hin [E H]]]]]. exists t. split; [exact Hin|]. rewrite E. lia.
Qed.

Lemma ownedb_iff : forall kv g s, In g (ownedb kv s) <-> owned kv g s.
Proof.
  intros kv g s. rewrite owned_named. unfold ownedb. rewrite in_map_iff. split.
  - intros [[g' [sid sl]] [Hg H]]. apply filter_In in H as [Hin H]. cbn in *. subst g'.
    exists sid, sl. split; [exact Hin|]. apply namedb_iff. exact H.
  - intros [sid [sl [Hin H]]]. exists (g, (sid, sl)). split; [reflexivity|]. apply filter_In.
    split; [exact Hin|]. cbn. apply namedb_iff. exact H.
Qed.

(** ** The slot check *)

Definition key_slot (crc : str -> N) (key : str) : Z := Z.of_N (N.land (crc key) 16383).

Section Check.
Variable (sort : sorter).
Hypothesis HS : is_sorter sort.

Lemma identify_iff : forall crc kv table key v, tables_ok sort kv table ->
  (get_string_identify crc key table = Some v <->
   exists g sl, In (g, (v, sl)) kv /\ named sl (key_slot crc key)).
Proof.
  intros crc kv table key v Hok. destruct (table_wf sort HS kv table Hok) as [Hn HA].
  unfold get_string_identify. rewrite (get_slot_identify_iff _ table v Hn HA).
  apply (table_holds sort HS kv table v). exact Hok.
Qed.

Lemma on_this_server : forall crc kv table sid leader key, tables_ok sort kv table ->
  (fst (is_key_on_this_server crc table sid leader key) = true <->
   exists g v sl, In (g, (v, sl)) kv /\ named sl (key_slot crc key) /\ (v = sid \/ v = leader)) /\
  (forall g v sl, In (g, (v, sl)) kv -> named sl (key_slot crc key) ->
     snd (is_key_on_this_server crc table sid leader key) = v) /\
  ((forall g, ~ owned kv g (key_slot crc key)) -> is_key_on_this_server crc table sid leader key = (false, [])).
Proof.
  intros crc kv table sid leader key Hok.
  pose proof (identify_iff crc kv table key) as HI. unfold is_key_on_this_server.
  destruct (get_string_identify crc key table) as [id|] eqn:E.
  - destruct (proj1 (HI id Hok) eq_refl) as [g0 [sl0 [Hin0 Hs0]]]. cbn [fst snd]. split; [|split].
    + split.
      * intros H. exists g0, id, sl0. split; [exact Hin0|]. split; [exact Hs0|].
        destruct (str_eq_dec id sid); [auto|]. destruct (str_eq_dec id leader); [auto|discriminate].
      * intros [g [v [sl [Hin [Hs Hv]]]]].
        assert (Some v = Some id) by (symmetry; apply (HI v Hok); eauto).
        assert (v = id) by congruence. subst v.
        destruct (str_eq_dec id sid); [reflexivity|]. destruct (str_eq_dec id leader); [reflexivity|tauto].
    + intros g v sl Hin Hs.
      assert (Some v = Some id) by (symmetry; apply (HI v Hok); eauto). congruence.
    + intros H. destruct (H g0). apply owned_named. eauto.
  - cbn [fst snd]. split; [|split].
    + split; [discriminate|]. intros [g [v [sl [Hin [Hs _]]]]].
      assert (None = Some v) by (apply (HI v Hok); eauto). discriminate.
    + intros g v sl Hin Hs. assert (None = Some v) by (apply (HI v Hok); eauto). discriminate.
    + reflexivity.
Qed.

(** The decision taken for a named key. *)
Definition key_decision (crc : str -> N) (prov : list edge) (sid leader : str) (peer : str -> str) (key : str) : decision :=
  let '(ok, other) := is_key_on_this_server crc prov sid leader key in
  if ok then Serve else Redirect (peer other).

Lemma key_decision_spec : forall crc kv table sid leader peer key, tables_ok sort kv table ->
  (key_decision crc table sid leader peer key = Serve <->
   exists g v sl, In (g, (v, sl)) kv /\ named sl (key_slot crc key) /\ (v = sid \/ v = leader)) /\
  (forall g v sl, In (g, (v, sl)) kv -> named sl (key_slot crc key) -> v <> sid -> v <> leader ->
     key_decision crc table sid leader peer key = Redirect (peer v)) /\
  ((forall g, ~ owned kv g (key_slot crc key)) -> key_decision crc table sid leader peer key = Redirect (peer [])).
Proof.
  intros crc kv table sid leader peer key Hok.
  destruct (on_this_server crc kv table sid leader key Hok) as [H1 [H2 H3]]. unfold key_decision.
  destruct (is_key_on_this_server crc table sid leader key) as [ok other]. cbn [fst snd] in *.
  split; [|split].
  - rewrite <- H1. destruct ok; split; congruence.
  - intros g v sl Hin Hs N1 N2. rewrite (H2 g v sl Hin Hs). destruct ok; [|reflexivity].
    destruct (proj1 H1 eq_refl) as [g' [v' [sl' [Hin' [Hs' Hv']]]]].
    assert (v = v') by (rewrite <- (H2 g v sl Hin Hs); apply (H2 g' v' sl' Hin' Hs')). subst v'. tauto.
  - intros H. specialize (H3 H). injection H3 as -> ->. reflexivity.
Qed.

End Check.

Lemma check_rpc_decision : forall crc prov sid leader peer id, id <> [] ->
  check_rpc crc prov sid leader peer (RMetaReq id) = key_decision crc prov sid leader peer id /\
  check_rpc crc prov sid leader peer (RMetadata id) = key_decision crc prov sid leader peer id /\
  check_http crc prov sid leader peer true id = key_decision crc prov sid leader peer id.
Proof. intros crc prov sid leader peer [|c id] H; [congruence|]. repeat split. Qed.

Lemma key_slot_range : forall crc key, 0 <= key_slot crc key < 16384.
Proof.
  intros crc key. unfold key_slot. replace 16383%N with (N.ones 14) by reflexivity.
  rewrite N.land_ones. pose proof (N.mod_lt (crc key) (2 ^ 14) ltac:(discriminate)).
  change (2 ^ 14)%N with 16384%N in *. lia.
Qed.

(** ** Concrete tables *)

Definition ex_kv : etcd :=
  [(s2l "a"%string, (s2l "A"%string, [s2l "0-16384"%string])); (s2l "b"%string, (s2l "B"%string, []))].
Definition ex_table : list edge := [mkEdge 0 16384 (s2l "A"%string)].

Lemma ex_ok : tables_ok isort ex_kv ex_table.
Proof.
  constructor.
  - apply NoDup_cons; [intros [H|[]]; discriminate H|]. apply NoDup_cons; [intros []|apply NoDup_nil].
  - apply NoDup_cons; [intros [H|[]]; discriminate H|]. apply NoDup_cons; [intros []|apply NoDup_nil].
  - vm_compute. reflexivity.
Qed.
