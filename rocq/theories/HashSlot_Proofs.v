From Verif Require Import Str_Spec Str_Proofs HashSlot_Model HashSlot_Spec.
From Coq Require Import ZifyBool ZifyNat.
Local Open Scope Z_scope.

(** ** Generic list facts *)

Definition disj (a b : edge) : Prop := forall s, contains a s -> contains b s -> False.

Lemma disj_sym : forall a b, disj a b -> disj b a.
Proof. unfold disj; eauto. Qed.

Fixpoint all_disj (l : list edge) : Prop :=
  match l with [] => True | a :: l' => Forall (disj a) l' /\ all_disj l' end.

Lemma all_disj_perm : forall l l', Permutation l l' -> all_disj l -> all_disj l'.
Proof.
  intros l l' HP. induction HP as [|x l l' HP IH|x y l|l l' l'' HP1 IH1 HP2 IH2]; cbn; intros H.
  - exact I.
  - destruct H as [H1 H2]. split; [|auto]. eapply Permutation_Forall; eassumption.
  - destruct H as [H1 [H2 H3]]. inversion H1 as [|? ? Ha Hb]; subst.
    repeat split; try assumption. constructor; [apply disj_sym; assumption|assumption].
  - auto.
Qed.

Lemma all_disj_iff : forall l, all_disj l <-> pairwise_disjoint l.
Proof.
  induction l as [|x l IH]; cbn.
  - split; [|auto]. intros _ i j a b s H. destruct i; discriminate.
  - split.
    + intros [HF HD]. apply IH in HD. rewrite Forall_forall in HF.
      intros [|i] [|j] a b s Ha Hb Hca Hcb; cbn in Ha, Hb.
      * reflexivity.
      * injection Ha as <-. exfalso. apply nth_error_In in Hb. eapply HF; eassumption.
      * injection Hb as <-. exfalso. apply nth_error_In in Ha. eapply HF; eassumption.
      * f_equal. eapply HD; eassumption.
    + intros HD. split.
      * apply Forall_forall. intros y Hy s Hx Hy'. apply In_nth_error in Hy as [n Hn].
        assert (0%nat = S n) by (eapply (HD 0%nat (S n)); cbn; eauto). discriminate.
      * apply IH. intros i j a b s Ha Hb Hca Hcb.
        assert (S i = S j) by (eapply (HD (S i) (S j)); cbn; eauto). congruence.
Qed.

Lemma nonempty_cons : forall e l, nonempty (e :: l) <-> e_start e < e_end e /\ nonempty l.
Proof.
  intros e l. unfold nonempty. cbn. split.
  - intros H. split; [apply H; auto|intros e' He'; apply H; auto].
  - intros [H1 H2] e' [<-|He']; auto.
Qed.

Lemma nonempty_perm : forall l l', Permutation l l' -> nonempty l -> nonempty l'.
Proof.
  intros l l' HP H e He. apply H. eapply Permutation_in; [symmetry; exact HP|exact He].
Qed.

Lemma covered_perm : forall l l' s, Permutation l l' -> covered l s -> covered l' s.
Proof. intros l l' s HP [e [He Hc]]. exists e. split; [eapply Permutation_in; eassumption|assumption]. Qed.

Lemma holds_perm : forall l l' v s, Permutation l l' -> holds l v s -> holds l' v s.
Proof. intros l l' v s HP [e [He Hc]]. exists e. split; [eapply Permutation_in; eassumption|assumption]. Qed.

Lemma holds_covered : forall l v s, holds l v s -> covered l s.
Proof. intros l v s [e [He [_ Hc]]]. exists e. auto. Qed.

Lemma covered_cons : forall e l s, covered (e :: l) s <-> contains e s \/ covered l s.
Proof.
  intros e l s. split.
  - intros [x [[<-|Hx] Hc]]; [auto|right; exists x; auto].
  - intros [Hc|[x [Hx Hc]]]; [exists e; cbn; auto|exists x; cbn; auto].
Qed.

Lemma covered_app : forall l l' s, covered (l ++ l') s <-> covered l s \/ covered l' s.
Proof.
  intros l l' s. split.
  - intros [x [Hx Hc]]. apply in_app_or in Hx as [Hx|Hx]; [left|right]; exists x; auto.
  - intros [[x [Hx Hc]]|[x [Hx Hc]]]; exists x; split; auto; apply in_or_app; auto.
Qed.

Lemma holds_cons : forall e l v s,
  holds (e :: l) v s <-> (e_value e = v /\ contains e s) \/ holds l v s.
Proof.
  intros e l v s. split.
  - intros [x [[<-|Hx] Hc]]; [auto|right; exists x; auto].
  - intros [Hc|[x [Hx Hc]]]; [exists e; cbn; auto|exists x; cbn; auto].
Qed.

Lemma holds_app : forall l l' v s, holds (l ++ l') v s <-> holds l v s \/ holds l' v s.
Proof.
  intros l l' v s. split.
  - intros [x [Hx Hc]]. apply in_app_or in Hx as [Hx|Hx]; [left|right]; exists x; auto.
  - intros [[x [Hx Hc]]|[x [Hx Hc]]]; exists x; split; auto; apply in_or_app; auto.
Qed.

(** ** Sorting and validation *)

Lemma edge_le_iff : forall a b, edge_le a b <->
  e_start a < e_start b \/ (e_start a = e_start b /\ e_end a <= e_end b).
Proof.
  intros a b. unfold edge_le, edge_less.
  destruct (Z.eqb_spec (e_start b) (e_start a)) as [E|E]; [rewrite Z.ltb_ge|rewrite Z.ltb_ge]; lia.
Qed.

Lemma edge_le_total : forall a b, edge_le a b \/ edge_le b a.
Proof. intros a b. rewrite !edge_le_iff. lia. Qed.

Lemma insert_perm : forall e l, Permutation (e :: l) (insert_edge e l).
Proof.
  intros e l. induction l as [|x l IH]; cbn; [reflexivity|].
  destruct (edge_less x e); [|reflexivity].
  rewrite perm_swap. constructor. exact IH.
Qed.

Lemma insert_sorted : forall e l, StronglySorted edge_le l -> StronglySorted edge_le (insert_edge e l).
Proof.
  intros e l HS. induction HS as [|x l HS IH HF]; cbn; [repeat constructor|].
  destruct (edge_less x e) eqn:E.
  - constructor; [exact IH|].
    eapply Permutation_Forall; [apply insert_perm|]. constructor; [|exact HF].
    apply edge_le_iff. unfold edge_less in E.
    destruct (Z.eqb_spec (e_start x) (e_start e)); lia.
  - constructor; [constructor; assumption|]. constructor; [exact E|].
    eapply Forall_impl; [|exact HF]. intros y Hy.
    rewrite edge_le_iff in *. assert (H := E). apply edge_le_iff in H. lia.
Qed.

Lemma isort_is_sorter : is_sorter isort.
Proof.
  intros l. induction l as [|e l [IH1 IH2]]; cbn; [split; constructor|].
  split; [|apply insert_sorted; exact IH2].
  etransitivity; [|apply insert_perm]. constructor. exact IH1.
Qed.

Lemma ascending_nonempty_disj : forall l, nonempty l -> ascending l -> all_disj l.
Proof.
  intros l Hn HA. induction HA as [|x l HA IH HF]; cbn; [exact I|].
  apply nonempty_cons in Hn as [Hx Hn]. split; [|auto].
  eapply Forall_impl; [|exact HF]. intros y Hy s H1 H2. unfold contains in *. lia.
Qed.

Lemma sorted_disj_ascending : forall l,
  StronglySorted edge_le l -> nonempty l -> all_disj l -> ascending l.
Proof.
  intros l HS. induction HS as [|x l HS IH HF]; cbn; intros Hn HD; [constructor|].
  apply nonempty_cons in Hn as [Hx Hn]. destruct HD as [HD1 HD2].
  constructor; [apply IH; assumption|].
  apply Forall_forall. rewrite Forall_forall in HF, HD1. intros y Hy.
  specialize (HF y Hy). specialize (HD1 y Hy). specialize (Hn y Hy).
  rewrite edge_le_iff in HF.
  destruct (Z_le_gt_dec (e_end x) (e_start y)) as [Hle|Hgt]; [exact Hle|].
  exfalso. apply (HD1 (e_start y)); unfold contains; lia.
Qed.

Lemma validate_loop_some : forall l p, e_start p < e_end p ->
  (validate_loop (Some p) l = true <->
   nonempty l /\ ascending l /\ Forall (fun e => e_end p <= e_start e) l).
Proof.
  induction l as [|e l IH]; intros p Hp; cbn.
  - split; [|auto]. intros _. split; [intros ? []|split; constructor].
  - destruct (Z.geb_spec (e_start e) (e_end e)) as [Hg|Hg].
    + split; [discriminate|]. intros [Hn _]. apply nonempty_cons in Hn as [Hn _]. lia.
    + destruct ((e_start p =? e_start e) || (e_end p >? e_start e)) eqn:E.
      * split; [discriminate|]. intros [_ [_ HF]]. inversion HF; subst.
        apply orb_true_iff in E as [E|E]; lia.
      * apply orb_false_iff in E as [E1 E2].
        rewrite IH by lia. split.
        -- intros [Hn [HA HF]]. repeat split.
           ++ apply nonempty_cons. split; [lia|assumption].
           ++ constructor; assumption.
           ++ constructor; [lia|]. eapply Forall_impl; [|exact HF]. cbn. intros a Ha. lia.
        -- intros [Hn [HA HF]]. apply nonempty_cons in Hn as [_ Hn].
           inversion HA; subst. auto.
Qed.

Lemma validate_iff : forall l, validate_loop None l = true <-> nonempty l /\ ascending l.
Proof.
  intros [|e l]; cbn.
  - split; [|auto]. intros _. split; [intros ? []|constructor].
  - destruct (Z.geb_spec (e_start e) (e_end e)) as [Hg|Hg].
    + split; [discriminate|]. intros [Hn _]. apply nonempty_cons in Hn as [Hn _]. lia.
    + rewrite validate_loop_some by lia. split.
      * intros [Hn [HA HF]]. split; [apply nonempty_cons; split; [lia|assumption]|constructor; assumption].
      * intros [Hn HA]. apply nonempty_cons in Hn as [_ Hn]. inversion HA; subst. auto.
Qed.

Lemma sort_validate_iff : forall sort l, is_sorter sort ->
  (snd (sort_and_validate sort l) = true <-> nonempty l /\ pairwise_disjoint l).
Proof.
  intros sort l HS. destruct (HS l) as [HP HSo]. unfold sort_and_validate. cbn.
  rewrite validate_iff. split.
  - intros [Hn HA]. split.
    + eapply nonempty_perm; [symmetry; exact HP|exact Hn].
    + apply all_disj_iff. eapply all_disj_perm; [symmetry; exact HP|].
      apply ascending_nonempty_disj; assumption.
  - intros [Hn HD]. apply all_disj_iff in HD.
    assert (Hn' : nonempty (sort l)) by (eapply nonempty_perm; eassumption).
    split; [exact Hn'|]. apply sorted_disj_ascending; try assumption.
    eapply all_disj_perm; eassumption.
Qed.

(** ** Binary search *)

Lemma search_loop_spec : forall f fuel i j,
  (j - i <= fuel)%nat ->
  (forall a b, (a <= b)%nat -> (b < j)%nat -> f a = true -> f b = true) ->
  (i <= j)%nat ->
  exists r, search_loop fuel f i j = Some r /\ (i <= r <= j)%nat /\
    (forall k, (i <= k < r)%nat -> f k = false) /\ ((r < j)%nat -> f r = true).
Proof.
  intros f fuel. induction fuel as [|fuel IH]; intros i j Hfu Hmono Hij; cbn [search_loop].
  - destruct (Nat.ltb_spec i j); [lia|]. exists i. repeat split; try lia.
  - destruct (Nat.ltb_spec i j) as [Hlt|Hge].
    + assert (Hh : (i <= Nat.div2 (i + j) < j)%nat).
      { rewrite Nat.div2_div. split; [apply Nat.div_le_lower_bound; lia|apply Nat.div_lt_upper_bound; lia]. }
      set (h := Nat.div2 (i + j)) in *.
      destruct (f h) eqn:Efh.
      * destruct (IH i h) as [r [Hr [Hb [Hk Ht]]]]; [lia| |lia|].
        { intros a b Hab Hbh. apply Hmono; lia. }
        exists r. repeat split; try lia; try assumption.
        intros Hrj. destruct (Nat.eq_dec r h) as [->|Hne]; [assumption|apply Ht; lia].
      * destruct (IH (S h) j) as [r [Hr [Hb [Hk Ht]]]]; [lia|assumption|lia|].
        exists r. repeat split; try lia; try assumption.
        intros k Hkr. destruct (le_lt_dec (S h) k) as [Hl|Hl]; [apply Hk; lia|].
        destruct (f k) eqn:Efk; [|reflexivity].
        exfalso. rewrite (Hmono k h) in Efh; [discriminate|lia|lia|assumption].
    + exists i. repeat split; try lia.
Qed.

Lemma sort_search_spec : forall n f,
  (forall a b, (a <= b)%nat -> (b < n)%nat -> f a = true -> f b = true) ->
  exists r, sort_search n f = Some r /\ (r <= n)%nat /\
    (forall k, (k < r)%nat -> f k = false) /\ ((r < n)%nat -> f r = true).
Proof.
  intros n f Hm. destruct (search_loop_spec f n 0 n) as [r [H1 [H2 [H3 H4]]]]; [lia|assumption|lia|].
  exists r. repeat split; try lia; try assumption. intros k Hk. apply H3. lia.
Qed.

Lemma ascending_nth : forall l i j a b, ascending l -> (i < j)%nat ->
  nth_error l i = Some a -> nth_error l j = Some b -> e_end a <= e_start b.
Proof.
  intros l i j a b HA. revert i j. induction HA as [|x l HA IH HF]; intros i j Hij Ha Hb.
  - destruct i; discriminate.
  - destruct j as [|j]; [lia|]. cbn in Hb. destruct i as [|i]; cbn in Ha.
    + injection Ha as <-. rewrite Forall_forall in HF. apply HF. eapply nth_error_In; eassumption.
    + eapply IH; [|eassumption|eassumption]. lia.
Qed.

Lemma before_end_mono : forall slot l, nonempty l -> ascending l ->
  forall a b, (a <= b)%nat -> (b < List.length l)%nat ->
  before_end slot l a = true -> before_end slot l b = true.
Proof.
  intros slot l Hn HA a b Hab Hb. unfold before_end.
  destruct (nth_error l a) as [x|] eqn:Ea; [|discriminate].
  destruct (nth_error l b) as [y|] eqn:Eb; [|apply nth_error_None in Eb; lia].
  intros H. destruct (Nat.eq_dec a b) as [->|Hne]; [rewrite Ea in Eb; congruence|].
  assert (e_end x <= e_start y) by (eapply ascending_nth; [exact HA| |exact Ea|exact Eb]; lia).
  assert (e_start y < e_end y) by (apply Hn; eapply nth_error_In; eassumption).
  lia.
Qed.

(** The common core of both lookups. *)
Lemma lookup_core : forall slot l, nonempty l -> ascending l ->
  exists idx, sort_search (List.length l) (before_end slot l) = Some idx /\
  ((exists e, nth_error l idx = Some e /\ slot < e_end e /\
              (forall x, In x l -> contains x slot -> x = e) /\
              (e_start e <= slot -> contains e slot) /\
              (~ e_start e <= slot -> ~ covered l slot))
   \/ (nth_error l idx = None /\ ~ covered l slot)).
Proof.
  intros slot l Hn HA.
  destruct (sort_search_spec (List.length l) (before_end slot l)) as [r [Hr [Hle [Hlow Hup]]]].
  { apply before_end_mono; assumption. }
  exists r. split; [exact Hr|].
  assert (Hbelow : forall k x, nth_error l k = Some x -> contains x slot -> (r <= k)%nat).
  { intros k x Hx Hc. destruct (le_lt_dec r k) as [|Hkr]; [assumption|].
    specialize (Hlow k Hkr). unfold before_end in Hlow. rewrite Hx in Hlow. unfold contains in Hc. lia. }
  destruct (nth_error l r) as [e|] eqn:Ee.
  - left. exists e. split; [reflexivity|].
    assert (Hlt : slot < e_end e).
    { assert ((r < List.length l)%nat) by (apply nth_error_Some; congruence).
      specialize (Hup H). unfold before_end in Hup. rewrite Ee in Hup. lia. }
    assert (Habove : forall k x, nth_error l k = Some x -> contains x slot -> k = r).
    { intros k x Hx Hc. pose proof (Hbelow k x Hx Hc) as Hrk.
      destruct (Nat.eq_dec k r) as [|Hne]; [assumption|exfalso].
      assert (e_end e <= e_start x) by (eapply ascending_nth; [exact HA| |exact Ee|exact Hx]; lia).
      unfold contains in Hc. lia. }
    repeat split; try lia.
    + intros x Hx Hc. apply In_nth_error in Hx as [k Hk].
      pose proof (Habove k x Hk Hc) as ->. congruence.
    + intros Hns [x [Hx Hc]]. apply In_nth_error in Hx as [k Hk].
      pose proof (Habove k x Hk Hc) as ->. rewrite Hk in Ee. injection Ee as ->.
      unfold contains in Hc. lia.
  - right. split; [reflexivity|]. intros [x [Hx Hc]].
    apply In_nth_error in Hx as [k Hk]. pose proof (Hbelow k x Hk Hc) as Hrk.
    assert ((k < List.length l)%nat) by (apply nth_error_Some; congruence).
    apply nth_error_None in Ee. lia.
Qed.


Lemma lookup_cases : forall slot l, nonempty l -> ascending l ->
  exists idx, sort_search (List.length l) (before_end slot l) = Some idx /\
  ((exists e, nth_error l idx = Some e /\ In e l /\ contains e slot /\
              (forall x, In x l -> contains x slot -> x = e))
   \/ (exists e, nth_error l idx = Some e /\ slot < e_start e /\ ~ covered l slot)
   \/ (nth_error l idx = None /\ ~ covered l slot)).
Proof.
  intros slot l Hn HA.
  destruct (lookup_core slot l Hn HA) as [idx [H1 [[e [He [Hlt [Hu [Hc Hnc]]]]]|[H2 H3]]]];
    exists idx; (split; [exact H1|]).
  - destruct (Z_le_gt_dec (e_start e) slot) as [Hle|Hgt].
    + left. exists e. split; [exact He|]. split; [eapply nth_error_In; eassumption|].
      split; [apply Hc; exact Hle|exact Hu].
    + right; left. exists e. split; [exact He|]. split; [lia|apply Hnc; lia].
  - right; right. auto.
Qed.

Lemma get_slot_identify_iff : forall slot l v, nonempty l -> ascending l ->
  (get_slot_identify slot l = Some v <-> holds l v slot).
Proof.
  intros slot l v Hn HA. unfold get_slot_identify.
  destruct (lookup_cases slot l Hn HA)
    as [idx [-> [[e [-> [Hin [Hc Hu]]]]|[[e [-> [Hlt Hnc]]]|[-> Hnc]]]]].
  - destruct (Z.geb_spec slot (e_start e)) as [Hg|Hg]; [|unfold contains in Hc; lia].
    split.
    + intros [= <-]. exists e. auto.
    + intros [x [Hx [<- Hcx]]]. rewrite (Hu x Hx Hcx). reflexivity.
  - destruct (Z.geb_spec slot (e_start e)) as [Hg|Hg]; [lia|].
    split; [discriminate|]. intros H. apply holds_covered in H. contradiction.
  - split; [discriminate|]. intros H. apply holds_covered in H. contradiction.
Qed.

Lemma get_slot_identify_none : forall slot l, nonempty l -> ascending l ->
  (get_slot_identify slot l = None <-> ~ covered l slot).
Proof.
  intros slot l Hn HA. split.
  - intros H [e [He Hc]]. assert (Hh : holds l (e_value e) slot) by (exists e; auto).
    apply get_slot_identify_iff in Hh; [congruence|assumption..].
  - intros H. destruct (get_slot_identify slot l) as [v|] eqn:E; [|reflexivity].
    apply get_slot_identify_iff in E; [|assumption..]. apply holds_covered in E. contradiction.
Qed.

Lemma is_slot_in_edges_iff : forall slot l, nonempty l -> ascending l ->
  (is_slot_in_edges slot l = true <-> covered l slot).
Proof.
  intros slot l Hn HA. unfold is_slot_in_edges.
  destruct (lookup_cases slot l Hn HA)
    as [idx [-> [[e [-> [Hin [Hc Hu]]]]|[[e [-> [Hlt Hnc]]]|[-> Hnc]]]]].
  - split; [intros _; exists e; auto|]. unfold contains in Hc. lia.
  - split; [lia|contradiction].
  - split; [discriminate|contradiction].
Qed.

(** ** Parsing of tables *)

(** The table vocabulary of the specification, read through [format_int]. *)
Definition table_range_f (tbl : list (str * list str)) (v : str) (a b : Z) : Prop :=
  exists slots t, In (v, slots) tbl /\ In t slots /\ format_int t = Some (a, b).
Definition table_wellformed_f (tbl : list (str * list str)) : Prop :=
  forall v slots t, In (v, slots) tbl -> In t slots ->
    exists a b, format_int t = Some (a, b) /\ a < b.
Definition table_disjoint_f (tbl : list (str * list str)) : Prop :=
  forall i j t u a b c d s,
    nth_error (table_texts tbl) i = Some t -> nth_error (table_texts tbl) j = Some u ->
    format_int t = Some (a, b) -> format_int u = Some (c, d) ->
    a <= s < b -> c <= s < d -> i = j.

Lemma wrap_slots_original_spec : forall slots v es,
  wrap_slots_original slots v = Some es ->
  map (fun e => Some (e_start e, e_end e)) es = map format_int slots /\
  Forall (fun e => e_value e = v) es.
Proof.
  induction slots as [|t slots IH]; cbn; intros v es H.
  - injection H as <-. split; [reflexivity|constructor].
  - destruct (format_int t) as [[a b]|] eqn:Et; [|discriminate].
    destruct (wrap_slots_original slots v) as [es'|] eqn:Ew; [|discriminate].
    injection H as <-. destruct (IH v es' Ew) as [H1 H2]. cbn. rewrite H1. split; [reflexivity|].
    constructor; [reflexivity|assumption].
Qed.

Lemma wrap_slots_original_none : forall slots v,
  wrap_slots_original slots v = None <-> exists t, In t slots /\ format_int t = None.
Proof.
  induction slots as [|t slots IH]; cbn; intros v.
  - split; [discriminate|intros [t [[] _]]].
  - destruct (format_int t) as [[a b]|] eqn:Et.
    + destruct (wrap_slots_original slots v) as [es|] eqn:Ew.
      * split; [discriminate|]. intros [u [[<-|Hu] Hf]]; [congruence|].
        assert (wrap_slots_original slots v = None) by (apply IH; eauto). congruence.
      * split; [|reflexivity]. intros _. destruct (proj1 (IH v) Ew) as [u [Hu Hf]]. eauto.
    + split; [|reflexivity]. intros _. eauto.
Qed.

Lemma wrap_all_none : forall tbl,
  wrap_all tbl = None <-> exists t, In t (table_texts tbl) /\ format_int t = None.
Proof.
  unfold table_texts. induction tbl as [|[v slots] tbl IH]; cbn.
  - split; [discriminate|intros [t [[] _]]].
  - destruct (wrap_slots_original slots v) as [es|] eqn:Ew.
    + destruct (wrap_all tbl) as [es'|] eqn:Ea.
      * split; [discriminate|]. intros [t [Ht Hf]]. apply in_app_or in Ht as [Ht|Ht].
        -- assert (wrap_slots_original slots v = None) by (apply wrap_slots_original_none; eauto). congruence.
        -- assert (Some es' = None) by (apply IH; eauto). congruence.
      * split; [|reflexivity]. intros _. destruct (proj1 IH eq_refl) as [t [Ht Hf]].
        exists t. split; [apply in_or_app; auto|assumption].
    + split; [|reflexivity]. intros _.
      destruct (proj1 (wrap_slots_original_none slots v) Ew) as [t [Ht Hf]].
      exists t. split; [apply in_or_app; auto|assumption].
Qed.

Lemma wrap_all_spec : forall tbl es, wrap_all tbl = Some es ->
  map (fun e => Some (e_start e, e_end e)) es = map format_int (table_texts tbl) /\
  (forall v a b, In (mkEdge a b v) es <-> table_range_f tbl v a b).
Proof.
  unfold table_texts. induction tbl as [|[v slots] tbl IH]; cbn; intros es H.
  - injection H as <-. split; [reflexivity|]. intros v a b. cbn. split; [intros []|].
    intros [slots [t [[] _]]].
  - destruct (wrap_slots_original slots v) as [es1|] eqn:Ew; [|discriminate].
    destruct (wrap_all tbl) as [es2|] eqn:Ea; [|discriminate].
    injection H as <-. destruct (IH es2 eq_refl) as [H1 H2].
    destruct (wrap_slots_original_spec slots v es1 Ew) as [H3 H4].
    split; [rewrite !map_app, H1, H3; reflexivity|].
    intros w a b. rewrite in_app_iff, H2. split.
    + intros [Hin|[sl [t [Hin [Ht Hf]]]]].
      * rewrite Forall_forall in H4. pose proof (H4 _ Hin) as Hv. cbn in Hv. subst w.
        apply (in_map (fun e => Some (e_start e, e_end e))) in Hin. rewrite H3 in Hin.
        apply in_map_iff in Hin as [t [Hf Ht]]. exists slots, t. cbn. auto.
      * exists sl, t. cbn. auto.
    + intros [sl [t [[Heq|Hin] [Ht Hf]]]].
      * injection Heq as <- <-. left.
        apply (in_map format_int) in Ht. rewrite <- H3, Hf in Ht.
        apply in_map_iff in Ht as [e [He Hin]]. destruct e as [ea eb ev]. cbn in He.
        injection He as -> ->. rewrite Forall_forall in H4. pose proof (H4 _ Hin) as Hv. cbn in Hv.
        subst ev. exact Hin.
      * right. exists sl, t. auto.
Qed.

Lemma wrap_slots_some : forall sort tbl res, is_sorter sort -> wrap_slots sort tbl = Some res ->
  nonempty res /\ ascending res /\ tbl <> [] /\
  (exists es, wrap_all tbl = Some es /\ Permutation es res).
Proof.
  intros sort tbl res HS H. unfold wrap_slots in H.
  destruct tbl as [|p tbl]; [discriminate|].
  destruct (wrap_all (p :: tbl)) as [es|] eqn:Ea; [|discriminate].
  cbn in H. destruct (validate_loop None (sort es)) eqn:Ev; [|discriminate].
  injection H as <-. apply validate_iff in Ev as [Hn HA].
  repeat split; try assumption; try discriminate. exists es. split; [reflexivity|apply HS].
Qed.

Lemma wrap_slots_holds : forall sort tbl res v s, is_sorter sort -> wrap_slots sort tbl = Some res ->
  (holds res v s <-> exists a b, table_range_f tbl v a b /\ a <= s < b).
Proof.
  intros sort tbl res v s HS H.
  destruct (wrap_slots_some sort tbl res HS H) as [Hn [HA [_ [es [Hes HP]]]]].
  destruct (wrap_all_spec tbl es Hes) as [_ Hr]. split.
  - intros Hh. apply (holds_perm res es) in Hh; [|symmetry; exact HP].
    destruct Hh as [[a b w] [Hin [Hw Hc]]]. cbn in Hw, Hc. subst w. exists a, b. split; [apply Hr; exact Hin|exact Hc].
  - intros [a [b [Ht Hc]]]. apply Hr in Ht. apply (holds_perm es res); [exact HP|].
    exists (mkEdge a b v). auto.
Qed.

Lemma slot_lookup_correct_f : forall sort tbl res slot, is_sorter sort -> wrap_slots sort tbl = Some res ->
  (forall v, get_slot_identify slot res = Some v <-> exists a b, table_range_f tbl v a b /\ a <= slot < b) /\
  (get_slot_identify slot res = None <-> forall v a b, table_range_f tbl v a b -> ~ (a <= slot < b)) /\
  (is_slot_in_edges slot res = true <-> exists v a b, table_range_f tbl v a b /\ a <= slot < b).
Proof.
  intros sort tbl res slot HS H.
  destruct (wrap_slots_some sort tbl res HS H) as [Hn [HA _]].
  assert (Hv : forall v, get_slot_identify slot res = Some v <-> exists a b, table_range_f tbl v a b /\ a <= slot < b).
  { intros v. rewrite get_slot_identify_iff by assumption. eapply wrap_slots_holds; eassumption. }
  split; [exact Hv|]. split.
  - split.
    + intros HN v a b Ht Hc. assert (get_slot_identify slot res = Some v) by (apply Hv; eauto). congruence.
    + intros HN. destruct (get_slot_identify slot res) as [v|] eqn:E; [|reflexivity].
      destruct (proj1 (Hv v) eq_refl) as [a [b [Ht Hc]]]. exfalso. eapply HN; eassumption.
  - rewrite is_slot_in_edges_iff by assumption. split.
    + intros [e [He Hc]]. assert (Hh : holds res (e_value e) slot) by (exists e; auto).
      eapply wrap_slots_holds in Hh; [|eassumption..]. exists (e_value e). exact Hh.
    + intros [v Hv']. eapply wrap_slots_holds in Hv'; [|eassumption..]. eapply holds_covered; eassumption.
Qed.

Lemma slot_single_owner_f : forall sort tbl res v w a b c d s, is_sorter sort -> wrap_slots sort tbl = Some res ->
  table_range_f tbl v a b -> table_range_f tbl w c d -> a <= s < b -> c <= s < d -> v = w.
Proof.
  intros sort tbl res v w a b c d s HS H Hv Hw Hcv Hcw.
  destruct (slot_lookup_correct_f sort tbl res s HS H) as [H1 _].
  assert (E1 : get_slot_identify s res = Some v) by (apply H1; eauto).
  assert (E2 : get_slot_identify s res = Some w) by (apply H1; eauto). congruence.
Qed.

Lemma nth_error_map_eq : forall (A B C : Type) (f : A -> C) (g : B -> C) l l' i a,
  map f l = map g l' -> nth_error l i = Some a ->
  exists b, nth_error l' i = Some b /\ f a = g b.
Proof.
  intros A B C f g l l' i a H Ha.
  assert (E : nth_error (map f l) i = Some (f a)) by (apply map_nth_error; exact Ha).
  rewrite H in E. rewrite nth_error_map in E.
  destruct (nth_error l' i) as [b|]; [|discriminate]. injection E as E. eauto.
Qed.

Lemma wrap_slots_accepts_iff_f : forall sort tbl, is_sorter sort ->
  ((exists res, wrap_slots sort tbl = Some res) <->
   tbl <> [] /\ table_wellformed_f tbl /\ table_disjoint_f tbl).
Proof.
  intros sort tbl HS. split.
  - intros [res H]. destruct (wrap_slots_some sort tbl res HS H) as [Hn [HA [Hne [es [Hes HP]]]]].
    destruct (wrap_all_spec tbl es Hes) as [Hmap Hr].
    assert (Hnes : nonempty es) by (eapply nonempty_perm; [symmetry; exact HP|exact Hn]).
    assert (HDes : pairwise_disjoint es).
    { apply all_disj_iff. eapply all_disj_perm; [symmetry; exact HP|].
      apply ascending_nonempty_disj; assumption. }
    split; [exact Hne|]. split.
    + intros v slots t Hin Ht.
      assert (Htt : In t (table_texts tbl)) by (unfold table_texts; apply in_flat_map; exists (v, slots); auto).
      apply (in_map format_int) in Htt. rewrite <- Hmap in Htt.
      apply in_map_iff in Htt as [e [He Hein]]. exists (e_start e), (e_end e).
      split; [congruence|apply Hnes; exact Hein].
    + intros i j t u a b c d s Hi Hj Hf1 Hf2 Hc1 Hc2.
      destruct (nth_error_map_eq _ _ _ format_int (fun e => Some (e_start e, e_end e)) _ es i t (eq_sym Hmap) Hi) as [e1 [He1 E1]].
      destruct (nth_error_map_eq _ _ _ format_int (fun e => Some (e_start e, e_end e)) _ es j u (eq_sym Hmap) Hj) as [e2 [He2 E2]].
      eapply (HDes i j e1 e2 s); try eassumption; unfold contains.
      * rewrite Hf1 in E1. injection E1 as -> ->. lia.
      * rewrite Hf2 in E2. injection E2 as -> ->. lia.
  - intros [Hne [Hw HD]]. unfold wrap_slots. destruct tbl as [|p tbl]; [congruence|].
    destruct (wrap_all (p :: tbl)) as [es|] eqn:Ea.
    + destruct (wrap_all_spec _ es Ea) as [Hmap Hr].
      assert (Hok : snd (sort_and_validate sort es) = true).
      { apply sort_validate_iff; [exact HS|]. split.
        - intros [a b v] He. apply Hr in He as [slots [t [Hin [Ht Hf]]]].
          destruct (Hw v slots t Hin Ht) as [a' [b' [Hf' Hlt]]]. cbn. rewrite Hf in Hf'.
          injection Hf' as <- <-. exact Hlt.
        - intros i j x y s Hi Hj Hcx Hcy.
          destruct (nth_error_map_eq _ _ _ _ format_int es _ i x Hmap Hi) as [t [Ht Et]].
          destruct (nth_error_map_eq _ _ _ _ format_int es _ j y Hmap Hj) as [u [Hu Eu]].
          cbn in Et, Eu. eapply (HD i j t u); [exact Ht|exact Hu|symmetry; exact Et|symmetry; exact Eu|exact Hcx|exact Hcy]. }
      unfold sort_and_validate in *. cbn in Hok. rewrite Hok. eauto.
    + exfalso. apply wrap_all_none in Ea as [t [Ht Hf]].
      unfold table_texts in Ht. apply in_flat_map in Ht as [[v slots] [Hin Ht]]. cbn in Ht.
      destruct (Hw v slots t Hin Ht) as [a [b [Hf' _]]]. congruence.
Qed.

(** ** Range text characterisation *)

Lemma format_int_print : forall a b, 0 <= a <= int64_max -> 0 <= b <= int64_max ->
  format_int (print_Z a ++ "-"%char :: print_Z b) = Some (a, b).
Proof.
  intros a b Ha Hb. unfold format_int.
  rewrite split_on_app by (rewrite print_Z_nonneg by lia; apply print_N_notin; reflexivity).
  rewrite split_on_notin by (rewrite print_Z_nonneg by lia; apply print_N_notin; reflexivity).
  rewrite atoi_print_Z by lia. destruct (Z.ltb_spec a 0); [lia|].
  rewrite atoi_print_Z by lia. destruct (Z.ltb_spec b 0); [lia|]. reflexivity.
Qed.

Lemma edge_strings_roundtrip : forall l v,
  (forall e, In e l -> 0 <= e_start e <= int64_max /\ 0 <= e_end e <= int64_max /\ e_value e = v) ->
  wrap_slots_original (edge_strings l) v = Some l.
Proof.
  induction l as [|[a b w] l IH]; intros v H; cbn; [reflexivity|].
  destruct (H (mkEdge a b w) (or_introl eq_refl)) as [Ha [Hb Hw]]. cbn in Ha, Hb, Hw. subst w.
  unfold edge_string. cbn. rewrite format_int_print by assumption.
  fold (edge_strings l). rewrite IH; [reflexivity|]. intros e He. apply H. right. exact He.
Qed.

Lemma split_two : forall sep s a b, split_on sep s = [a; b] -> s = a ++ sep :: b /\ ~ In sep a /\ ~ In sep b.
Proof.
  intros sep s. induction s as [|c s IH]; cbn; intros a b H; [discriminate|].
  destruct (ascii_dec c sep) as [->|Hc].
  - injection H as <- H. split.
    + assert (s = b).
      { clear IH. revert b H. induction s as [|c s IHs]; cbn; intros b H; [congruence|].
        destruct (ascii_dec c sep); [injection H as <- H; exfalso; eapply split_on_nonempty; eassumption|].
        destruct (split_on sep s) as [|w [|w' ws]] eqn:E; try discriminate.
        - exfalso; eapply split_on_nonempty; eassumption.
        - injection H as <-. rewrite (IHs w eq_refl). reflexivity. }
      subst b. reflexivity.
    + split; [intros []|].
      clear IH. revert b H. induction s as [|c s IHs]; cbn; intros b H; [injection H as <-; intros []|].
      destruct (ascii_dec c sep); [injection H as <- H; exfalso; eapply split_on_nonempty; eassumption|].
      destruct (split_on sep s) as [|w [|w' ws]] eqn:E; try discriminate.
      * exfalso; eapply split_on_nonempty; eassumption.
      * injection H as <-. intros [->|Hin]; [congruence|]. eapply IHs; [reflexivity|exact Hin].
  - destruct (split_on sep s) as [|w ws] eqn:E; [discriminate|].
    injection H as <- Hws. subst ws. destruct (IH w b eq_refl) as [-> [Hw Hb]].
    split; [reflexivity|]. split; [intros [->|Hin]; [congruence|auto]|assumption].
Qed.

Lemma format_int_some : forall t a b, format_int t = Some (a, b) ->
  0 <= a <= int64_max /\ 0 <= b <= int64_max /\
  exists x y, t = x ++ "-"%char :: y /\ ~ In "-"%char x /\ ~ In "-"%char y /\ atoi x = Some a /\ atoi y = Some b.
Proof.
  intros t a b. unfold format_int.
  destruct (split_on "-" t) as [|x [|y [|z ws]]] eqn:E; try discriminate.
  destruct (atoi x) as [s|] eqn:Ex; [|discriminate].
  destruct (Z.ltb_spec s 0); [discriminate|].
  destruct (atoi y) as [e|] eqn:Ey; [|discriminate].
  destruct (Z.ltb_spec e 0); [discriminate|].
  intros [= <- <-]. apply split_two in E as [-> [Hx Hy]].
  pose proof (atoi_range _ _ Ex). pose proof (atoi_range _ _ Ey).
  repeat split; try lia. exists x, y. auto.
Qed.

Lemma plus_dec_text_no_minus : forall s n, plus_dec_text s n -> ~ In "-"%char s.
Proof.
  assert (H : forall s n, dec_text s n -> ~ In "-"%char s).
  { intros s n [_ [HF _]] Hin. rewrite Forall_forall in HF. apply HF in Hin.
    apply dec_digit_not_sign in Hin. tauto. }
  intros s n [Ht|[r [-> Ht]]]; [eauto|]. intros [E|Hin]; [discriminate|]. eapply H; eassumption.
Qed.

Lemma format_int_iff : forall t a b, format_int t = Some (a, b) <-> range_text t a b.
Proof.
  intros t a b. split.
  - intros H. destruct (format_int_some t a b H) as [Ha [Hb [x [y [-> [Hx [Hy [Ex Ey]]]]]]]].
    apply atoi_nonneg_iff in Ex as [_ Ex]; [|exact Hx]. apply atoi_nonneg_iff in Ey as [_ Ey]; [|exact Hy].
    exists x, y. auto.
  - intros [x [y [-> [Hx [Hy [Ha Hb]]]]]].
    pose proof (plus_dec_text_no_minus _ _ Hx) as Nx. pose proof (plus_dec_text_no_minus _ _ Hy) as Ny.
    unfold format_int. rewrite split_on_app by exact Nx. rewrite split_on_notin by exact Ny.
    assert (Ex : atoi x = Some a) by (apply atoi_nonneg_iff; auto).
    assert (Ey : atoi y = Some b) by (apply atoi_nonneg_iff; auto).
    rewrite Ex, Ey. destruct (Z.ltb_spec a 0); [lia|]. destruct (Z.ltb_spec b 0); [lia|]. reflexivity.
Qed.

Lemma table_range_iff : forall tbl v a b, table_range_f tbl v a b <-> table_range tbl v a b.
Proof.
  intros tbl v a b. split; intros [slots [t [H1 [H2 H3]]]]; exists slots, t; repeat split; try assumption;
    apply format_int_iff; assumption.
Qed.

Lemma table_wellformed_iff : forall tbl, table_wellformed_f tbl <-> table_wellformed tbl.
Proof.
  intros tbl. split; intros H v slots t H1 H2; destruct (H v slots t H1 H2) as [a [b [H3 H4]]];
    exists a, b; (split; [apply format_int_iff; assumption|assumption]).
Qed.

Lemma table_disjoint_iff : forall tbl, table_disjoint_f tbl <-> table_disjoint tbl.
Proof.
  intros tbl. split; intros H i j t u a b c d s H1 H2 H3 H4 H5 H6;
    apply (H i j t u a b c d s); try assumption; apply format_int_iff; assumption.
Qed.

Lemma slot_lookup_correct : forall sort tbl res slot, is_sorter sort -> wrap_slots sort tbl = Some res ->
  (forall v, get_slot_identify slot res = Some v <-> exists a b, table_range tbl v a b /\ a <= slot < b) /\
  (get_slot_identify slot res = None <-> forall v a b, table_range tbl v a b -> ~ (a <= slot < b)) /\
  (is_slot_in_edges slot res = true <-> exists v a b, table_range tbl v a b /\ a <= slot < b).
Proof.
  intros sort tbl res slot HS H.
  destruct (slot_lookup_correct_f sort tbl res slot HS H) as [H1 [H2 H3]]. split; [|split].
  - intros v. rewrite H1. split; intros [a [b [Ht Hc]]]; exists a, b; (split; [apply table_range_iff|]); assumption.
  - rewrite H2. split; intros HN v a b Ht; apply (HN v); apply table_range_iff; exact Ht.
  - rewrite H3. split; intros [v [a [b [Ht Hc]]]]; exists v, a, b; (split; [apply table_range_iff|]); assumption.
Qed.

Lemma slot_single_owner : forall sort tbl res v w a b c d s, is_sorter sort -> wrap_slots sort tbl = Some res ->
  table_range tbl v a b -> table_range tbl w c d -> a <= s < b -> c <= s < d -> v = w.
Proof.
  intros sort tbl res v w a b c d s HS H Hv Hw. apply table_range_iff in Hv, Hw.
  eapply slot_single_owner_f; eassumption.
Qed.

Lemma wrap_slots_accepts_iff : forall sort tbl, is_sorter sort ->
  ((exists res, wrap_slots sort tbl = Some res) <->
   tbl <> [] /\ table_wellformed tbl /\ table_disjoint tbl).
Proof.
  intros sort tbl HS. rewrite (wrap_slots_accepts_iff_f sort tbl HS), table_wellformed_iff, table_disjoint_iff.
  reflexivity.
Qed.

(** ** RemoveEdges *)

Lemma remove_one_holds : forall del e v s,
  holds (remove_one del e) v s <-> e_value e = v /\ contains e s /\ ~ contains del s.
Proof.
  intros del e v s. unfold remove_one.
  destruct ((e_end e <=? e_start del) || (e_end del <=? e_start e)) eqn:E.
  - unfold holds, contains. split.
    + intros [x [[<-|[]] [Hv Hc]]]. repeat split; try tauto; try lia.
    + intros [Hv [Hc Hd]]. exists e. cbn. auto.
  - apply orb_false_iff in E as [E1 E2]. rewrite holds_app. unfold contains.
    destruct (Z.ltb_spec (e_start e) (e_start del)) as [H1|H1];
    destruct (Z.gtb_spec (e_end e) (e_end del)) as [H2|H2];
    unfold holds, contains; cbn; split.
    all: try (intros [[x [[<-|[]] [Hv Hc]]]|[x [[<-|[]] [Hv Hc]]]]; cbn in *; repeat split; try tauto; lia).
    all: try (intros [[x [[] [Hv Hc]]]|[x [[<-|[]] [Hv Hc]]]]; cbn in *; repeat split; try tauto; lia).
    all: try (intros [[x [[<-|[]] [Hv Hc]]]|[x [[] [Hv Hc]]]]; cbn in *; repeat split; try tauto; lia).
    all: try (intros [[x [[] _]]|[x [[] _]]]).
    all: intros [Hv [Hc Hd]].
    + destruct (Z_lt_ge_dec s (e_start del)).
      * left. eexists. split; [left; reflexivity|]. cbn. split; [assumption|lia].
      * right. eexists. split; [left; reflexivity|]. cbn. split; [assumption|lia].
    + left. eexists. split; [left; reflexivity|]. cbn. split; [assumption|lia].
    + right. eexists. split; [left; reflexivity|]. cbn. split; [assumption|lia].
    + lia.
Qed.

Lemma flat_map_remove_holds : forall del src v s,
  holds (flat_map (remove_one del) src) v s <-> holds src v s /\ ~ contains del s.
Proof.
  intros del src v s. induction src as [|e src IH]; cbn.
  - unfold holds; cbn. split; [intros [x [[] _]]|intros [[x [[] _]] _]].
  - rewrite holds_app, remove_one_holds, IH, holds_cons. tauto.
Qed.

Lemma remove_edges_holds : forall dest src v s,
  holds (remove_edges src dest) v s <-> holds src v s /\ ~ covered dest s.
Proof.
  unfold remove_edges. induction dest as [|del dest IH]; cbn; intros src v s.
  - split; [intros H; split; [exact H|intros [x [[] _]]]|tauto].
  - rewrite IH, flat_map_remove_holds, covered_cons. tauto.
Qed.

Lemma ascending_app : forall l1 l2, ascending l1 -> ascending l2 ->
  (forall a b, In a l1 -> In b l2 -> e_end a <= e_start b) -> ascending (l1 ++ l2).
Proof.
  intros l1 l2 H1 H2. induction H1 as [|x l1 H1 IH HF]; cbn; intros H; [exact H2|].
  constructor; [apply IH; intros a b Ha Hb; apply H; auto|].
  apply Forall_app. split; [exact HF|]. apply Forall_forall. intros b Hb. apply H; auto.
Qed.

Lemma remove_one_bounds : forall del e x, In x (remove_one del e) -> e_start e < e_end e ->
  e_start e <= e_start x /\ e_end x <= e_end e /\ e_start x < e_end x.
Proof.
  intros del e x. unfold remove_one.
  destruct ((e_end e <=? e_start del) || (e_end del <=? e_start e)) eqn:E.
  - intros [<-|[]] H. lia.
  - apply orb_false_iff in E as [E1 E2].
    intros Hin He. apply in_app_or in Hin as [Hin|Hin].
    + destruct (Z.ltb_spec (e_start e) (e_start del)); [|destruct Hin].
      destruct Hin as [<-|[]]. cbn. lia.
    + destruct (Z.gtb_spec (e_end e) (e_end del)); [|destruct Hin].
      destruct Hin as [<-|[]]. cbn. lia.
Qed.

Lemma remove_one_ascending : forall del e, e_start del <= e_end del -> ascending (remove_one del e).
Proof.
  intros del e Hd. unfold remove_one.
  destruct ((e_end e <=? e_start del) || (e_end del <=? e_start e)) eqn:E; [repeat constructor|].
  destruct (Z.ltb_spec (e_start e) (e_start del)); destruct (Z.gtb_spec (e_end e) (e_end del));
    cbn; repeat constructor. cbn. lia.
Qed.

Lemma flat_map_remove_wf : forall del src, e_start del <= e_end del -> nonempty src -> ascending src ->
  nonempty (flat_map (remove_one del) src) /\ ascending (flat_map (remove_one del) src).
Proof.
  intros del src Hd Hn HA. induction HA as [|e src HA IH HF]; cbn; [split; [intros ? []|constructor]|].
  apply nonempty_cons in Hn as [He Hn]. destruct (IH Hn) as [I1 I2]. split.
  - intros x Hx. apply in_app_or in Hx as [Hx|Hx]; [apply (remove_one_bounds del e x Hx He)|apply I1; exact Hx].
  - apply ascending_app; [apply remove_one_ascending; exact Hd|exact I2|].
    intros a b Ha Hb. apply in_flat_map in Hb as [e' [He' Hb]].
    rewrite Forall_forall in HF. specialize (HF e' He').
    pose proof (remove_one_bounds del e a Ha He). pose proof (remove_one_bounds del e' b Hb (Hn e' He')). lia.
Qed.

Lemma remove_edges_wf : forall dest src, (forall d, In d dest -> e_start d <= e_end d) ->
  nonempty src -> ascending src ->
  nonempty (remove_edges src dest) /\ ascending (remove_edges src dest).
Proof.
  unfold remove_edges. induction dest as [|del dest IH]; cbn; intros src Hd Hn HA; [auto|].
  destruct (flat_map_remove_wf del src (Hd del (or_introl eq_refl)) Hn HA). apply IH; auto.
Qed.

(** ** CombineEdges *)

(** Invariant of the merge loop: the accumulator, reversed, is separated and
    non-empty, and its last range starts no later than what follows. *)
Definition comb_inv (acc : list edge) : Prop := nonempty acc /\ separated (rev acc).

Lemma separated_snoc : forall l x, separated l -> (forall a, In a l -> e_end a < e_start x) -> separated (l ++ [x]).
Proof.
  intros l x H. induction H as [|y l H IH HF]; cbn; intros Hx; [repeat constructor|].
  constructor; [apply IH; auto|]. apply Forall_app. split; [exact HF|]. constructor; [apply Hx; auto|constructor].
Qed.

Lemma separated_snoc_inv : forall l x, separated (l ++ [x]) -> separated l /\ (forall a, In a l -> e_end a < e_start x).
Proof.
  induction l as [|y l IH]; cbn; intros x H; [split; [constructor|intros ? []]|].
  inversion H as [|? ? HS HF]; subst. destruct (IH x HS) as [I1 I2]. split.
  - constructor; [exact I1|]. apply Forall_app in HF as [HF _]. exact HF.
  - intros a [<-|Ha]; [|apply I2; exact Ha]. apply Forall_app in HF as [_ HF]. inversion HF; assumption.
Qed.

Lemma combine_fold : forall l acc,
  StronglySorted edge_le l -> nonempty l -> comb_inv acc ->
  (forall a e, In a acc -> In e l -> e_start a <= e_start e) ->
  let r := fold_left combine_step l acc in
  comb_inv r /\
  (forall s, covered r s <-> covered acc s \/ covered l s) /\
  (forall v, (forall e, In e acc -> e_value e = v) -> (forall e, In e l -> e_value e = v) ->
             forall e, In e r -> e_value e = v).
Proof.
  induction l as [|e l IH]; cbn [fold_left]; intros acc HS Hn Hinv Hle; cbn zeta.
  - split; [exact Hinv|]. split; [|auto]. intros s. split; [auto|]. intros [H|[x [[] _]]]; exact H.
  - inversion HS as [|? ? HS' HF]; subst. apply nonempty_cons in Hn as [He Hn].
    rewrite Forall_forall in HF.
    assert (Hse : forall y, In y l -> e_start e <= e_start y).
    { intros y Hy. specialize (HF y Hy). apply edge_le_iff in HF. lia. }
    destruct Hinv as [Hna Hsep].
    assert (Hgoal : forall acc', acc' = combine_step acc e ->
      comb_inv acc' /\ (forall s, covered acc' s <-> covered acc s \/ contains e s) /\
      (forall a y, In a acc' -> In y l -> e_start a <= e_start y) /\
      (forall v, (forall x, In x acc -> e_value x = v) -> e_value e = v -> forall x, In x acc' -> e_value x = v)).
    { intros acc' ->. unfold combine_step. destruct acc as [|last before].
      - repeat split.
        + intros x [<-|[]]. exact He.
        + repeat constructor.
        + intros H. apply covered_cons in H as [H|[x [[] _]]]. auto.
        + intros [[x [[] _]]|H]. apply covered_cons. auto.
        + intros a y [<-|[]] Hy. auto.
        + intros v _ Hv x [<-|[]]. exact Hv.
      - cbn [rev] in Hsep. apply separated_snoc_inv in Hsep as [Hs1 Hs2].
        apply nonempty_cons in Hna as [Hl Hnb].
        assert (Hle1 : e_start last <= e_start e) by (apply Hle; cbn; auto).
        destruct (Z.leb_spec (e_start e) (e_end last)) as [Hm|Hm].
        + repeat split.
          * apply nonempty_cons. cbn. split; [lia|exact Hnb].
          * cbn [rev]. apply separated_snoc; [exact Hs1|]. intros a Ha. cbn. specialize (Hs2 a Ha). lia.
          * rewrite !covered_cons. unfold contains. cbn. intros [H|H]; [|tauto].
            destruct (Z_lt_ge_dec s (e_end last)); [left; left; lia|right; lia].
          * rewrite !covered_cons. unfold contains. cbn. intros [[H|H]|H]; [left; lia|tauto|left; lia].
          * intros a y [<-|Ha] Hy; cbn; [specialize (Hse y Hy); lia|apply Hle; cbn; auto].
          * intros v Hv1 Hv2 x [<-|Hx]; cbn; apply Hv1; cbn; auto.
        + repeat split.
          * apply nonempty_cons. split; [exact He|]. apply nonempty_cons. auto.
          * cbn [rev]. apply separated_snoc; [apply separated_snoc; assumption|].
            intros a Ha. apply in_app_or in Ha as [Ha|[<-|[]]]; [|lia].
            apply in_rev in Ha. assert (e_end a < e_start last) by (apply Hs2; apply -> in_rev; exact Ha). lia.
          * rewrite covered_cons. tauto.
          * rewrite (covered_cons e). tauto.
          * intros a y [<-|Ha] Hy; [auto|apply Hle; cbn in *; auto].
          * intros v Hv1 Hv2 x [<-|Hx]; auto. }
    destruct (Hgoal (combine_step acc e) eq_refl) as [G1 [G2 [G3 G4]]].
    destruct (IH (combine_step acc e) HS' Hn G1 G3) as [I1 [I2 I3]].
    split; [exact I1|]. split.
    + intros s. rewrite I2, G2, covered_cons. tauto.
    + intros v Hv1 Hv2. apply I3; [|intros x Hx; apply Hv2; right; exact Hx].
      apply G4; [exact Hv1|apply Hv2; left; reflexivity].
Qed.

Lemma separated_ascending : forall l, separated l -> ascending l.
Proof.
  intros l H. induction H as [|x l H IH HF]; [constructor|]. constructor; [exact IH|].
  eapply Forall_impl; [|exact HF]. cbn. intros; lia.
Qed.

Lemma covered_rev : forall l s, covered (rev l) s <-> covered l s.
Proof.
  intros l s. unfold covered. split; intros [e [He Hc]]; exists e; (split; [|exact Hc]);
    apply in_rev; [exact He|rewrite rev_involutive; exact He].
Qed.

Lemma combine_edges_correct : forall sort src dest, is_sorter sort -> nonempty src -> nonempty dest ->
  let r := combine_edges sort src dest in
  nonempty r /\ separated r /\
  (forall s, covered r s <-> covered src s \/ covered dest s) /\
  (forall v, (forall e, In e src -> e_value e = v) -> (forall e, In e dest -> e_value e = v) ->
             forall e, In e r -> e_value e = v).
Proof.
  intros sort src dest HS Hn1 Hn2. cbn zeta. unfold combine_edges.
  destruct (HS (src ++ dest)) as [HP HSo].
  assert (Hn : nonempty (sort (src ++ dest))).
  { eapply nonempty_perm; [exact HP|]. intros e He. apply in_app_or in He as [He|He]; auto. }
  destruct (combine_fold (sort (src ++ dest)) [] HSo Hn) as [[I1 I2] [I3 I4]].
  { split; [intros ? []|constructor]. }
  { intros a e []. }
  repeat split.
  - intros e He. apply I1. apply in_rev. exact He.
  - exact I2.
  - intros H. apply covered_rev, I3 in H as [[x [[] _]]|H].
    apply covered_app. eapply covered_perm; [symmetry; exact HP|exact H].
  - intros H. apply covered_rev, I3. right. eapply covered_perm; [exact HP|].
    apply covered_app. exact H.
  - intros v Hv1 Hv2 e He. apply (I4 v); [intros ? []| |apply in_rev; exact He].
    intros x Hx. assert (Hx' : In x (src ++ dest)) by (eapply Permutation_in; [symmetry; exact HP|exact Hx]).
    apply in_app_or in Hx' as [Hx'|Hx']; auto.
Qed.

(** ** FindRangeCurrentData *)

Definition clip (start end_ : Z) (e : edge) : list edge :=
  if (e_start e <? start) && (start <? e_end e) then [mkEdge start (Z.min (e_end e) end_) (e_value e)]
  else if (e_start e >=? start) && (e_start e <? end_) then [mkEdge (e_start e) (Z.min (e_end e) end_) (e_value e)]
  else [].

Definition total_len (l : list edge) : Z := fold_right (fun e n => (e_end e - e_start e) + n) 0 l.

Lemma find_range_fold : forall start end_ l res n,
  fold_left (find_range_step start end_) l (res, n) =
  (res ++ flat_map (clip start end_) l, n - total_len (flat_map (clip start end_) l)).
Proof.
  intros start end_ l. induction l as [|e l IH]; intros res n; cbn [fold_left flat_map].
  - cbn [total_len fold_right]. rewrite app_nil_r. f_equal. lia.
  - assert (Hs : find_range_step start end_ (res, n) e =
                 (res ++ clip start end_ e, n - total_len (clip start end_ e))).
    { unfold find_range_step, clip.
      destruct ((e_start e <? start) && (start <? e_end e)).
      - cbn [total_len fold_right e_start e_end]. f_equal. lia.
      - destruct ((e_start e >=? start) && (e_start e <? end_)).
        + cbn [total_len fold_right e_start e_end]. f_equal. lia.
        + cbn [total_len fold_right]. rewrite app_nil_r. f_equal. lia. }
    rewrite Hs, IH, <- app_assoc. f_equal.
    assert (Ha : forall l1 l2, total_len (l1 ++ l2) = total_len l1 + total_len l2).
    { induction l1 as [|x l1 IHl]; intros l2; [reflexivity|]; cbn [app total_len fold_right].
      fold (total_len (l1 ++ l2)). fold (total_len l1). rewrite IHl. lia. }
    rewrite Ha. lia.
Qed.

Lemma find_range_eq : forall start end_ l,
  find_range_current_data start end_ l =
  (flat_map (clip start end_) l, end_ - start - total_len (flat_map (clip start end_) l) =? 0).
Proof.
  intros start end_ l. unfold find_range_current_data. rewrite find_range_fold. reflexivity.
Qed.

Lemma clip_cases : forall start end_ e, start < end_ -> e_start e < e_end e ->
  (clip start end_ e = [] /\ (e_end e <= start \/ end_ <= e_start e)) \/
  (clip start end_ e = [mkEdge (Z.max start (e_start e)) (Z.min (e_end e) end_) (e_value e)] /\
   e_start e < end_ /\ start < e_end e).
Proof.
  intros start end_ e Hse He. unfold clip.
  destruct (Z.ltb_spec (e_start e) start); destruct (Z.ltb_spec start (e_end e)); cbn [andb].
  - right. rewrite Z.max_l by lia. split; [reflexivity|lia].
  - destruct (Z.geb_spec (e_start e) start); [lia|]. cbn [andb]. left. split; [reflexivity|lia].
  - destruct (Z.geb_spec (e_start e) start); [|lia]. destruct (Z.ltb_spec (e_start e) end_); cbn [andb].
    + right. rewrite Z.max_r by lia. split; [reflexivity|lia].
    + left. split; [reflexivity|lia].
  - destruct (Z.geb_spec (e_start e) start); lia.
Qed.

Lemma clip_holds : forall start end_ e v s, start < end_ -> e_start e < e_end e ->
  (holds (clip start end_ e) v s <-> e_value e = v /\ contains e s /\ start <= s < end_).
Proof.
  intros start end_ e v s Hse He. unfold holds, contains.
  destruct (clip_cases start end_ e Hse He) as [[-> H]|[-> H]]; cbn.
  - split; [intros [x [[] _]]|lia].
  - split.
    + intros [x [[<-|[]] [Hv Hc]]]. cbn in Hc, Hv. split; [assumption|lia].
    + intros [Hv Hc]. eexists. split; [left; reflexivity|]. cbn. split; [assumption|lia].
Qed.

Lemma flat_clip_holds : forall start end_ l v s, start < end_ -> nonempty l ->
  (holds (flat_map (clip start end_) l) v s <-> holds l v s /\ start <= s < end_).
Proof.
  intros start end_ l v s Hse. induction l as [|e l IH]; intros Hn; cbn.
  - unfold holds; cbn. split; [intros [x [[] _]]|intros [[x [[] _]] _]].
  - apply nonempty_cons in Hn as [He Hn]. rewrite holds_app, clip_holds, IH, holds_cons by assumption. tauto.
Qed.

Lemma flat_clip_wf : forall start end_ l, start < end_ -> nonempty l -> ascending l ->
  nonempty (flat_map (clip start end_) l) /\ ascending (flat_map (clip start end_) l) /\
  (forall x, In x (flat_map (clip start end_) l) -> start <= e_start x /\ e_end x <= end_).
Proof.
  intros start end_ l Hse Hn HA. induction HA as [|e l HA IH HF]; cbn.
  - repeat split; try constructor; try (intros ? []); destruct H.
  - apply nonempty_cons in Hn as [He Hn]. destruct (IH Hn) as [I1 [I2 I3]].
    destruct (clip_cases start end_ e Hse He) as [[-> H]|[-> H]]; cbn.
    + auto.
    + split; [|split].
      * apply nonempty_cons. cbn. split; [lia|exact I1].
      * constructor; [exact I2|]. apply Forall_forall. intros x Hx. cbn.
        apply in_flat_map in Hx as [y [Hy Hx]]. rewrite Forall_forall in HF. specialize (HF y Hy).
        destruct (clip_cases start end_ y Hse (Hn y Hy)) as [[Hc H']|[Hc H']]; rewrite Hc in Hx; [destruct Hx|].
        destruct Hx as [<-|[]]. cbn. lia.
      * intros x [<-|Hx]; [cbn; lia|apply I3; exact Hx].
Qed.

(** Sum of lengths of an ascending list inside [a,b) reaches b-a iff all covered. *)
Lemma total_len_full : forall l a b, a <= b -> nonempty l -> ascending l ->
  (forall x, In x l -> a <= e_start x /\ e_end x <= b) ->
  total_len l <= b - a /\ (total_len l = b - a <-> forall s, a <= s < b -> covered l s).
Proof.
  induction l as [|e l IH]; intros a b Hab Hn HA Hin; cbn [total_len fold_right].
  - split; [lia|]. split.
    + intros H s Hs. lia.
    + intros H. destruct (Z.eq_dec a b); [lia|]. destruct (H a) as [x [[] _]]. lia.
  - apply nonempty_cons in Hn as [He Hn]. inversion HA as [|? ? HA' HF]; subst.
    rewrite Forall_forall in HF. destruct (Hin e (or_introl eq_refl)) as [H1 H2].
    destruct (IH (e_end e) b) as [I1 I2]; [lia|assumption|assumption| |].
    { intros x Hx. split; [apply HF; exact Hx|apply Hin; right; exact Hx]. }
    fold (total_len l). split; [lia|]. split.
    + intros H s Hs. assert (e_start e = a) by lia. assert (Hb : total_len l = b - e_end e) by lia.
      rewrite covered_cons. unfold contains.
      destruct (Z_lt_ge_dec s (e_end e)); [left; lia|right]. apply I2; [exact Hb|lia].
    + intros H.
      assert (e_start e = a).
      { destruct (Z.eq_dec (e_start e) a) as [|Hne]; [assumption|exfalso].
        destruct (H a) as [x [[<-|Hx] Hc]]; [lia|unfold contains in Hc; lia|].
        specialize (HF x Hx). unfold contains in Hc. lia. }
      assert (total_len l = b - e_end e); [|lia].
      apply I2. intros s Hs. destruct (proj1 (covered_cons e l s) (H s ltac:(lia))) as [Hc|Hc]; [|exact Hc].
      unfold contains in Hc. lia.
Qed.

Lemma holds_covered_iff : forall l s, covered l s <-> exists v, holds l v s.
Proof.
  intros l s. split.
  - intros [e [He Hc]]. exists (e_value e), e. auto.
  - intros [v H]. eapply holds_covered; eassumption.
Qed.

Lemma find_range_correct : forall start end_ l res fully, start < end_ -> nonempty l -> ascending l ->
  find_range_current_data start end_ l = (res, fully) ->
  nonempty res /\ ascending res /\
  (forall v s, holds res v s <-> holds l v s /\ start <= s < end_) /\
  (fully = true <-> forall s, start <= s < end_ -> covered l s).
Proof.
  intros start end_ l res fully Hse Hn HA H. rewrite find_range_eq in H. injection H as <- <-.
  destruct (flat_clip_wf start end_ l Hse Hn HA) as [W1 [W2 W3]].
  split; [exact W1|]. split; [exact W2|].
  assert (Hh : forall v s, holds (flat_map (clip start end_) l) v s <-> holds l v s /\ start <= s < end_).
  { intros v s. apply flat_clip_holds; assumption. }
  split; [exact Hh|].
  destruct (total_len_full (flat_map (clip start end_) l) start end_) as [T1 T2]; [lia|assumption..|].
  rewrite Z.eqb_eq. split.
  - intros HE s Hs. assert (HT : total_len (flat_map (clip start end_) l) = end_ - start) by lia.
    pose proof (proj1 T2 HT s Hs) as Hc. apply holds_covered_iff in Hc as [v Hv].
    apply Hh in Hv as [Hv _]. eapply holds_covered; eassumption.
  - intros Hall. assert (HT : total_len (flat_map (clip start end_) l) = end_ - start); [|lia].
    apply T2. intros s Hs. apply holds_covered_iff. destruct (proj1 (holds_covered_iff l s) (Hall s Hs)) as [v Hv].
    exists v. apply Hh. auto.
Qed.

Lemma is_valid_edge_sound : forall e l, e_start e < e_end e -> nonempty l -> ascending l ->
  is_valid_edge e l = true -> forall s, contains e s -> holds l (e_value e) s.
Proof.
  intros e l He Hn HA H s Hs. unfold is_valid_edge in H.
  destruct (find_range_current_data (e_start e) (e_end e) l) as [res fully] eqn:Ef.
  destruct (find_range_correct _ _ _ _ _ He Hn HA Ef) as [F1 [F2 [F3 F4]]].
  destruct fully; cbn in H; [|discriminate].
  destruct res as [|p [|q res]]; try discriminate. apply str_eqb_eq in H.
  pose proof (proj1 F4 eq_refl s Hs) as Hc. apply holds_covered_iff in Hc as [v Hv].
  assert (Hp : holds [p] v s) by (apply F3; auto).
  assert (v = e_value e).
  { destruct Hp as [x [[<-|[]] [Hx _]]]. congruence. }
  congruence.
Qed.

(** In a table whose touching ranges have different owners ("normalised"),
    a range held entirely by one owner lies in one range of the table. *)
Definition normalised (l : list edge) : Prop :=
  forall i a b, nth_error l i = Some a -> nth_error l (S i) = Some b ->
    e_end a = e_start b -> e_value a <> e_value b.

Lemma ascending_unique : forall l x y s, nonempty l -> ascending l -> In x l -> In y l ->
  contains x s -> contains y s -> x = y.
Proof.
  intros l x y s Hn HA Hx Hy Hcx Hcy.
  destruct (lookup_cases s l Hn HA)
    as [idx [_ [[e [_ [_ [_ Hu]]]]|[[e [_ [_ Hnc]]]|[_ Hnc]]]]].
  - rewrite (Hu x Hx Hcx), (Hu y Hy Hcy). reflexivity.
  - exfalso. apply Hnc. exists x. auto.
  - exfalso. apply Hnc. exists x. auto.
Qed.

Lemma find_first : forall l s, covered l s -> exists i e, nth_error l i = Some e /\ contains e s.
Proof. intros l s [e [He Hc]]. apply In_nth_error in He as [i Hi]. eauto. Qed.

Lemma held_range_single : forall l e, e_start e < e_end e -> nonempty l -> ascending l -> normalised l ->
  (forall s, contains e s -> holds l (e_value e) s) ->
  exists x, In x l /\ e_value x = e_value e /\ e_start x <= e_start e /\ e_end e <= e_end x.
Proof.
  intros l e He Hn HA HN Hall.
  destruct (Hall (e_start e)) as [x [Hx [Hvx Hcx]]]; [unfold contains; lia|].
  exists x. split; [exact Hx|]. split; [exact Hvx|]. unfold contains in Hcx. split; [lia|].
  destruct (Z_le_gt_dec (e_end e) (e_end x)) as [|Hgt]; [assumption|exfalso].
  destruct (Hall (e_end x)) as [y [Hy [Hvy Hcy]]]; [unfold contains; lia|].
  unfold contains in Hcy.
  apply In_nth_error in Hx as [i Hi]. apply In_nth_error in Hy as [j Hj].
  destruct (Nat.lt_trichotomy i j) as [Hij|[->|Hij]].
  - assert (Hxy : e_end x <= e_start y) by (eapply ascending_nth; [exact HA|exact Hij|exact Hi|exact Hj]).
    assert (e_start y = e_end x) by lia.
    destruct (Nat.eq_dec j (S i)) as [->|Hne]; [eapply (HN i x y); [exact Hi|exact Hj|lia|congruence]|].
    destruct (nth_error l (S i)) as [z|] eqn:Ez.
    + assert (e_end x <= e_start z) by (eapply ascending_nth; [exact HA| |exact Hi|exact Ez]; lia).
      assert (e_end z <= e_start y) by (eapply ascending_nth; [exact HA| |exact Ez|exact Hj]; lia).
      assert (e_start z < e_end z) by (apply Hn; eapply nth_error_In; eassumption). lia.
    + apply nth_error_None in Ez. assert ((j < List.length l)%nat) by (apply nth_error_Some; congruence). lia.
  - rewrite Hi in Hj. injection Hj as ->. lia.
  - assert (e_end y <= e_start x) by (eapply ascending_nth; [exact HA|exact Hij|exact Hj|exact Hi]).
    assert (e_start x < e_end x) by (apply Hn; eapply nth_error_In; eassumption). lia.
Qed.

Lemma is_valid_edge_complete : forall l e x, e_start e < e_end e -> nonempty l -> ascending l ->
  In x l -> e_value x = e_value e -> e_start x <= e_start e -> e_end e <= e_end x ->
  is_valid_edge e l = true.
Proof.
  intros l e x He Hn HA Hx Hv Hs Hee. unfold is_valid_edge.
  destruct (find_range_current_data (e_start e) (e_end e) l) as [res fully] eqn:Ef.
  destruct (find_range_correct _ _ _ _ _ He Hn HA Ef) as [F1 [F2 [F3 F4]]].
  assert (fully = true) as ->.
  { apply F4. intros s Hs'. exists x. split; [exact Hx|]. unfold contains. lia. }
  cbn.
  assert (Hstart : forall y, In y res -> e_start e <= e_start y /\ e_end y <= e_end e).
  { rewrite find_range_eq in Ef. injection Ef as <- _. apply flat_clip_wf; assumption. }
  (* each piece comes from x itself *)
  assert (Hpc : forall y, In y res -> e_start y = e_start e /\ e_end y = e_end e /\ e_value y = e_value e).
  { rewrite find_range_eq in Ef. injection Ef as <- _. intros y Hy.
    apply in_flat_map in Hy as [z [Hz Hy]].
    destruct (clip_cases (e_start e) (e_end e) z He (Hn z Hz)) as [[Hc H']|[Hc H']]; rewrite Hc in Hy; [destruct Hy|].
    assert (z = x).
    { destruct (Z_le_gt_dec (e_start z) (e_start e)).
      - eapply (ascending_unique l z x (e_start e)); unfold contains; try assumption; lia.
      - eapply (ascending_unique l z x (e_start z)); unfold contains; try assumption.
        + assert (e_start z < e_end z) by (apply Hn; assumption). lia.
        + lia. }
    subst z. destruct Hy as [<-|[]]. cbn. repeat split; [lia|lia|congruence]. }
  destruct res as [|p [|q res]].
  - destruct (proj2 (F3 (e_value e) (e_start e))) as [y [[] _]].
    split; [exists x; unfold contains; repeat split; try assumption; lia|lia].
  - destruct (Hpc p) as [_ [_ Hp]]; [cbn; auto|]. apply str_eqb_eq. exact Hp.
  - exfalso. destruct (Hpc p) as [P1 [P2 _]]; [cbn; auto|]. destruct (Hpc q) as [Q1 [Q2 _]]; [cbn; auto|].
    inversion F2 as [|? ? _ HF]; subst. inversion HF as [|? ? Hpq _]; subst. lia.
Qed.
