(** Lemmas about what servers know of each other and hold after a join. *)
From Coq Require Import List Ascii ZArith Lia Bool Permutation.
From Verif Require Import Str_Model Str_Proofs Util_Model Util_Proofs Sel_Model Migrate_Model Migrate_Spec Migrate_Proofs Share_Model Share_Spec.
Import ListNotations.
Local Open Scope list_scope.
Local Open Scope Z_scope.
Local Notation length := List.length.

Lemma bytes_iff l b : bytes_of l b <-> b = stored l.
Proof.
  split.
  - induction 1 as [|n s l b H IH]; [reflexivity|]. cbn [stored fold_right snd]. unfold stored in IH. rewrite IH. reflexivity.
  - intros ->. induction l as [|[n s] l IH]; [constructor|]. exact (bytes_cons n s l _ IH).
Qed.

Lemma stored_cons f l : stored (f :: l) = snd f + stored l.
Proof. reflexivity. Qed.
Lemma stored_app l r : stored (l ++ r) = stored l + stored r.
Proof. induction l as [|f l IH]; cbn [app]; [reflexivity|]. rewrite !stored_cons, IH. lia. Qed.
Lemma stored_nonneg l : sized l -> 0 <= stored l.
Proof.
  induction l as [|f l IH]; intros H; [reflexivity|]. rewrite stored_cons.
  assert (0 < snd f) by (apply H; left; reflexivity). assert (0 <= stored l) by (apply IH; intros x Hx; apply H; right; exact Hx). lia.
Qed.

(** ** The map of capacities *)
Lemma set_cap_in m ip c k v : NoDup (map fst m) ->
  (In (k, v) (set_cap m ip c) <-> (k = ip /\ v = c) \/ (k <> ip /\ In (k, v) m)).
Proof.
  induction m as [|[k' v'] m IH]; cbn [set_cap map fst]; intros ND.
  - split.
    + intros [H|[]]. inversion H. left. split; reflexivity.
    + intros [[-> ->]|[_ []]]. left. reflexivity.
  - apply NoDup_cons_iff in ND. destruct ND as [N1 N2]. destruct (str_eqb k' ip) eqn:E.
    + apply str_eqb_eq in E. subst k'. cbn [In]. split.
      * intros [H|H]; [inversion H; left; split; reflexivity|].
        right. split; [|right; exact H]. intros ->. apply N1. apply (in_map fst _ _ H).
      * intros [[-> ->]|[H [H2|H2]]]; [left; reflexivity|inversion H2; subst; contradiction H; reflexivity|right; exact H2].
    + cbn [In]. rewrite (IH N2). split.
      * intros [H|[H|H]]; [|left; exact H|right; split; [exact (proj1 H)|right; exact (proj2 H)]].
        inversion H; subst. right. split; [|left; reflexivity]. intros ->. rewrite str_eqb_refl in E. discriminate.
      * intros [H|[H [H2|H2]]]; [right; left; exact H|left; exact H2|right; right; split; assumption].
Qed.

Lemma set_cap_keys m ip c : NoDup (map fst m) -> NoDup (map fst (set_cap m ip c)).
Proof.
  induction m as [|[k' v'] m IH]; cbn [set_cap map fst]; intros ND.
  - constructor; [intros []|constructor].
  - assert (ND0 := ND). apply NoDup_cons_iff in ND. destruct ND as [N1 N2]. destruct (str_eqb k' ip) eqn:E; cbn [map fst]; [exact ND0|].
    apply NoDup_cons_iff. split; [|exact (IH N2)]. intros H. apply in_map_iff in H. destruct H as ([k v] & <- & H). cbn [fst] in *.
    apply (set_cap_in m ip c k v N2) in H. destruct H as [[-> _]|[_ H]]; [rewrite str_eqb_refl in E; discriminate|].
    apply N1. apply (in_map fst _ _ H).
Qed.

Lemma caps_inv self answer ips : forall m, NoDup (map fst m) ->
  NoDup (map fst (fold_left (one_cap self answer) ips m)) /\
  forall k v, In (k, v) (fold_left (one_cap self answer) ips m) <->
    (In k ips /\ k <> self /\ exists h, answer k = Some h /\ v = to_int64 h) \/
    (~ (In k ips /\ k <> self /\ answer k <> None) /\ In (k, v) m).
Proof.
  induction ips as [|ip ips IH]; intros m ND; cbn [fold_left].
  - split; [exact ND|]. intros k v. cbn [In]. split; [intros H; right; split; [intros [[] _]|exact H]|intros [[[] _]|[_ H]]; exact H].
  - destruct (IH (one_cap self answer m ip)) as [I1 I2].
    { unfold one_cap. destruct (str_eqb ip self); [exact ND|]. destruct (answer ip); [apply set_cap_keys|]; exact ND. }
    split; [exact I1|]. intros k v. rewrite I2. clear I1 I2 IH. unfold one_cap. destruct (str_eqb ip self) eqn:E.
    + apply str_eqb_eq in E. subst ip. cbn [In]. split.
      * intros [(A & B & C)|(A & B)]; [left; split; [right; exact A|split; assumption]|].
        right. split; [|exact B]. intros ([->|X] & Y & Z); [apply Y; reflexivity|apply A; repeat split; assumption].
      * intros [([<-|A] & B & C)|(A & B)]; [contradiction B; reflexivity|left; repeat split; assumption|].
        right. split; [|exact B]. intros (X & Y & Z). apply A. repeat split; [right; exact X|exact Y|exact Z].
    + assert (NE : ip <> self) by (intros ->; rewrite str_eqb_refl in E; discriminate).
      destruct (answer ip) as [h|] eqn:A.
      * cbn [In]. rewrite (set_cap_in m ip (to_int64 h) k v ND). split.
        -- intros [(B & C & D)|(B & [[-> ->]|[C D]])].
           ++ left. split; [right; exact B|split; assumption].
           ++ left. split; [left; reflexivity|]. split; [exact NE|]. exists h. split; [exact A|reflexivity].
           ++ right. split; [|exact D]. intros ([X|X] & Y & Z); [apply C; symmetry; exact X|apply B; repeat split; assumption].
        -- intros [([<-|B] & C & D)|(B & C)].
           ++ destruct D as (h' & D1 & D2). rewrite A in D1. inversion D1. subst h'.
              destruct (in_dec str_eq_dec ip ips) as [I|I].
              ** left. split; [exact I|]. split; [exact C|]. exists h. split; [exact A|exact D2].
              ** right. split; [intros (X & _); exact (I X)|]. left. split; [reflexivity|exact D2].
           ++ left. repeat split; assumption.
           ++ right. split; [intros (X & Y & Z); apply B; repeat split; [right; exact X|exact Y|exact Z]|].
              right. split; [|exact C]. intros ->. apply B. split; [left; reflexivity|]. split; [exact NE|]. rewrite A. discriminate.
      * cbn [In]. split.
        -- intros [(B & C & D)|(B & C)]; [left; split; [right; exact B|split; assumption]|].
           right. split; [|exact C]. intros ([<-|X] & Y & Z); [contradiction Z; exact A|apply B; repeat split; assumption].
        -- intros [([<-|B] & C & D)|(B & C)].
           ++ destruct D as (h & D & _). rewrite A in D. discriminate.
           ++ left. repeat split; assumption.
           ++ right. split; [|exact C]. intros (X & Y & Z). apply B. repeat split; [right; exact X|exact Y|exact Z].
Qed.

Lemma caps_in ips self answer k v : In (k, v) (peers_capacity ips self answer) <->
  In k ips /\ k <> self /\ exists h, answer k = Some h /\ v = to_int64 h.
Proof.
  unfold peers_capacity. destruct (caps_inv self answer ips [] (NoDup_nil _)) as [_ H]. rewrite H. cbn [In].
  split; [intros [A|[_ []]]; exact A|intros A; left; exact A].
Qed.

Lemma caps_keys ips self answer : NoDup (map fst (peers_capacity ips self answer)).
Proof. exact (proj1 (caps_inv self answer ips [] (NoDup_nil _))). Qed.

Lemma find_addr peers p : NoDup (map pr_addr peers) -> In p peers ->
  find (fun x => str_eqb (pr_addr x) (pr_addr p)) peers = Some p.
Proof.
  induction peers as [|x peers IH]; cbn [map find]; intros ND H; [destruct H|].
  apply NoDup_cons_iff in ND. destruct ND as [N1 N2]. destruct H as [->|H]; [rewrite str_eqb_refl; reflexivity|].
  destruct (str_eqb (pr_addr x) (pr_addr p)) eqn:E; [|exact (IH N2 H)].
  apply str_eqb_eq in E. exfalso. apply N1. rewrite E. apply in_map. exact H.
Qed.

Lemma ask_of peers p : NoDup (map pr_addr peers) -> In p peers -> ask peers (pr_addr p) = stat_of p.
Proof. intros ND H. unfold ask. rewrite (find_addr peers p ND H). reflexivity. Qed.

Lemma ask_in peers a h : ask peers a = Some h -> exists p, In p peers /\ pr_addr p = a /\ stat_of p = Some h.
Proof.
  unfold ask. destruct (find _ peers) as [p|] eqn:F; [|discriminate]. intros H.
  apply find_some in F. destruct F as [F1 F2]. apply str_eqb_eq in F2. exists p. repeat split; assumption.
Qed.

Lemma average_some l : l <> [] -> exists s, average l = Some s.
Proof. intros H. unfold average. destruct l as [|d l]; [contradiction H; reflexivity|]. eexists. reflexivity. Qed.

Lemma stat_tells p : pr_up p = true -> pr_drives p <> Some [] -> stat_of p = Some (print_Z (stored (pr_files p))).
Proof.
  intros U D. unfold stat_of. rewrite U. unfold stat_info. destruct (pr_drives p) as [l|]; [|reflexivity].
  destruct (average_some l) as [s ->]; [intros ->; apply D; reflexivity|reflexivity].
Qed.

(** ** The plan *)
Lemma filter_all_out {A} (f : A -> bool) l : (forall x, In x l -> f x = false) -> filter f l = [].
Proof.
  induction l as [|x l IH]; intros H; [reflexivity|]. cbn [filter]. rewrite (H x) by (left; reflexivity).
  apply IH. intros y Hy. apply H. right. exact Hy.
Qed.

Lemma join_exact self caps :
  Forall (fun kv => 0 <= snd kv) caps -> 0 <= self -> self + sum_of caps < 2 ^ 53 ->
  exists a, fair a (self + sum_of caps) (S (length caps)) /\
  match deviation_values self caps true with
  | Some plan => forall k q, In (k, q) plan <-> exists v, In (k, v) caps /\ q = v - a /\ 0 < q
  | None => forall k v, In (k, v) caps -> v <= a
  end.
Proof.
  intros Hc Hs Ht. set (T := self + sum_of caps) in *. set (n := Z.of_nat (S (length caps))).
  assert (Hn : 0 < n) by (unfold n; lia). assert (HT : 0 <= T) by (pose proof (sum_of_nonneg _ Hc); lia).
  assert (C := ceil_div64_exact T n (conj HT Ht) Hn).
  exists (ceil_div64 T n). split; [exact C|].
  unfold deviation_values. fold n. rewrite (total64_exact caps self Hc Hs Ht). fold T.
  destruct (n =? 0) eqn:E; [apply Z.eqb_eq in E; lia|].
  assert (Hv : forall k v, In (k, v) caps -> 0 <= v) by (intros k v H; rewrite Forall_forall in Hc; exact (Hc _ H)).
  destruct (T =? 0) eqn:ET.
  - apply Z.eqb_eq in ET. intros k v H.
    assert (v <= sum_of caps).
    { clear -H Hc. induction caps as [|x l IH]; [destruct H|]. rewrite sum_of_cons. inversion Hc; subst.
      destruct H as [->|H]; [cbn [snd]; pose proof (sum_of_nonneg l ltac:(assumption)); lia|].
      specialize (IH ltac:(assumption) H). lia. }
    assert (0 <= ceil_div64 T n). { destruct C as [C1 C2]. nia. } lia.
  - set (a := ceil_div64 T n).
    assert (Q : forall k q, In (k, q) (filter (fun kv => 0 <? snd kv) (map (fun kv => (fst kv, snd kv - a)) caps)) <->
                exists v, In (k, v) caps /\ q = v - a /\ 0 < q).
    { intros k q. rewrite filter_In. cbn [snd]. rewrite Z.ltb_lt. split.
      - intros [H P]. apply in_map_iff in H. destruct H as ([k' v] & H & I). cbn [fst snd] in H. inversion H; subst.
        exists v. repeat split; assumption.
      - intros (v & I & -> & P). split; [|exact P]. apply in_map_iff. exists (k, v). split; [reflexivity|exact I]. }
    cbv beta iota. destruct (filter _ (map _ caps)) as [|x l] eqn:F.
    + intros k v H. assert (~ 0 < v - a); [|lia]. intros P. apply (proj2 (Q k (v - a))). exists v. repeat split; assumption.
    + exact Q.
Qed.

Lemma fair_unique a b t n : fair a t n -> fair b t n -> (0 < n)%nat -> a = b.
Proof. unfold fair. intros A B N. nia. Qed.

(** ** The walk *)
Lemma taken_nil q : taken q [] = O.
Proof. reflexivity. Qed.

Lemma taken_cons q f l : taken q (f :: l) = S (if q - snd f <=? 0 then O else taken (q - snd f) l).
Proof.
  destruct f as [n s]. unfold taken. cbn [sending_plan distribute snd]. cbn [length].
  destruct (q - s <=? 0); reflexivity.
Qed.

Lemma taken_bounds m : 0 <= m -> forall l q, sized l -> (forall f, In f l -> snd f <= m) -> 0 < q -> q <= stored l ->
  q <= stored (firstn (taken q l) l) < q + m.
Proof.
  intros Hm. induction l as [|f l IH]; intros q S B P Q.
  - cbn in Q. lia.
  - rewrite stored_cons in Q. rewrite taken_cons. cbn [firstn]. rewrite stored_cons.
    assert (0 < snd f) by (apply S; left; reflexivity). assert (snd f <= m) by (apply B; left; reflexivity).
    destruct (q - snd f <=? 0) eqn:E.
    + apply Z.leb_le in E. cbn [firstn stored fold_right]. lia.
    + apply Z.leb_gt in E. assert (q - snd f <= stored (firstn (taken (q - snd f) l) l) < q - snd f + m); [|lia].
      apply IH; [intros x Hx; apply S; right; exact Hx|intros x Hx; apply B; right; exact Hx|lia|lia].
Qed.

(** ** Moving *)
Lemma filter_split {A} (g : A -> bool) l : Permutation l (filter (fun x => negb (g x)) l ++ filter g l).
Proof.
  induction l as [|x l IH]; [constructor|]. cbn [filter]. destruct (g x); cbn [negb].
  - apply Permutation_cons_app. exact IH.
  - cbn [app]. constructor. exact IH.
Qed.

Lemma require_moves ok q l : Permutation l (fst (require_send ok q l) ++ snd (require_send ok q l)).
Proof.
  unfold require_send. cbn [fst snd]. rewrite <- (firstn_skipn (taken q l) l) at 1.
  rewrite (filter_split (fun f => ok (fst f)) (firstn (taken q l) l)) at 1.
  rewrite <- !app_assoc. apply Permutation_app_head. apply Permutation_app_comm.
Qed.

Lemma give_moves ok plan p : Permutation (pr_files p) (pr_files (fst (give ok plan p)) ++ snd (give ok plan p)).
Proof.
  unfold give. destruct (asked plan (pr_addr p) =? 0); cbn [fst snd]; [rewrite app_nil_r; reflexivity|].
  cbn [pr_files]. apply require_moves.
Qed.

Lemma gives_move ok plan peers :
  Permutation (List.concat (map pr_files peers))
    (List.concat (map snd (map (give ok plan) peers)) ++ List.concat (map pr_files (map fst (map (give ok plan) peers)))).
Proof.
  induction peers as [|p peers IH]; [constructor|]. cbn [map List.concat].
  rewrite IH. rewrite (give_moves ok plan p) at 1.
  set (A := pr_files (fst (give ok plan p))). set (B := snd (give ok plan p)).
  set (C := List.concat (map snd (map (give ok plan) peers))). set (D := List.concat (map pr_files (map fst (map (give ok plan) peers)))).
  rewrite <- !app_assoc. rewrite (Permutation_app_comm A). rewrite <- !app_assoc. apply Permutation_app_head.
  apply Permutation_app_head. apply Permutation_app_comm.
Qed.

Lemma asked_in plan k q : NoDup (map fst plan) -> In (k, q) plan -> asked plan k = q.
Proof.
  unfold asked. induction plan as [|[k' q'] plan IH]; cbn [map fst find]; intros ND H; [destruct H|].
  apply NoDup_cons_iff in ND. destruct ND as [N1 N2]. destruct H as [H|H].
  - inversion H; subst. rewrite str_eqb_refl. reflexivity.
  - destruct (str_eqb k' k) eqn:E; [|exact (IH N2 H)]. apply str_eqb_eq in E. subst k'. exfalso. apply N1. apply (in_map fst _ _ H).
Qed.

Lemma asked_out plan k : (forall q, ~ In (k, q) plan) -> asked plan k = 0.
Proof.
  intros H. unfold asked. destruct (find _ plan) as [[k' q]|] eqn:F; [|reflexivity].
  apply find_some in F. destruct F as [F1 F2]. cbn [fst] in F2. apply str_eqb_eq in F2. subst k'. exfalso. exact (H q F1).
Qed.

Lemma filter_keep_all {A} (f : A -> bool) l : forallb f l = true -> filter f l = l /\ filter (fun x => negb (f x)) l = [].
Proof.
  induction l as [|x l IH]; cbn [forallb filter]; intros H; [split; reflexivity|].
  apply andb_true_iff in H. destruct H as [H1 H2]. rewrite H1. cbn [negb]. destruct (IH H2) as [-> ->]. split; reflexivity.
Qed.

(** A server after a join in which all its transfers succeed. *)
Lemma give_done ok plan p : forallb (fun f => ok (fst f)) (tried plan p) = true ->
  snd (give ok plan p) = tried plan p /\
  pr_files (fst (give ok plan p)) = (if asked plan (pr_addr p) =? 0 then pr_files p else skipn (taken (asked plan (pr_addr p)) (pr_files p)) (pr_files p)).
Proof.
  unfold give, tried. destruct (asked plan (pr_addr p) =? 0); [split; reflexivity|].
  intros H. unfold require_send. cbn [fst snd pr_files]. destruct (filter_keep_all _ _ H) as [-> ->]. split; reflexivity.
Qed.

(** ** A join among servers that tell *)
Definition cap_of (p : peer) : str * Z := (pr_addr p, stored (pr_files p)).

Lemma nodup_fst {A B} (l : list (A * B)) : NoDup (map fst l) -> NoDup l.
Proof.
  induction l as [|x l IH]; cbn [map]; intros H; [constructor|]. apply NoDup_cons_iff in H. destruct H as [H1 H2].
  constructor; [|exact (IH H2)]. intros I. apply H1. apply in_map. exact I.
Qed.

Lemma caps_perm ips self peers : discovered ips self peers -> (forall p, In p peers -> tells p) ->
  (forall p, In p peers -> 0 <= stored (pr_files p) <= int64_max) ->
  Permutation (peers_capacity ips self (ask peers)) (map cap_of peers).
Proof.
  intros (D1 & D2 & D3) T R. apply NoDup_Permutation.
  - apply nodup_fst. apply caps_keys.
  - apply nodup_fst. rewrite map_map. exact D3.
  - intros [k v]. rewrite caps_in. rewrite in_map_iff. split.
    + intros (A & B & h & C & ->). destruct (ask_in peers k h C) as (p & P1 & <- & P3). exists p. split; [|exact P1].
      destruct (T p P1) as [U W]. rewrite (stat_tells p U W) in P3. inversion P3. unfold cap_of. f_equal.
      symmetry. apply to_int64_print. exact (R p P1).
    + intros (p & E & P). unfold cap_of in E. inversion E; subst. split; [apply D1; right; apply in_map; exact P|].
      split; [intros X; apply D2; rewrite <- X; apply in_map; exact P|].
      exists (print_Z (stored (pr_files p))). rewrite (ask_of peers p D3 P). destruct (T p P) as [U W].
      split; [exact (stat_tells p U W)|]. symmetry. apply to_int64_print. exact (R p P).
Qed.

Lemma sum_of_perm l r : Permutation l r -> sum_of l = sum_of r.
Proof. induction 1; rewrite ?sum_of_cons in *; lia. Qed.

Lemma sum_caps peers : sum_of (map cap_of peers) = stored (List.concat (map pr_files peers)).
Proof.
  induction peers as [|p peers IH]; [reflexivity|]. cbn [map List.concat]. rewrite sum_of_cons, stored_app, IH. reflexivity.
Qed.

Lemma sized_part l r : sized (l ++ r) -> sized l /\ sized r.
Proof. intros H. split; intros f F; apply H; apply in_or_app; [left|right]; exact F. Qed.

Lemma sized_peer mine peers p : sized (everything mine peers) -> In p peers -> sized (pr_files p).
Proof.
  intros H P f F. apply H. apply in_or_app. right. apply in_concat. exists (pr_files p). split; [apply in_map; exact P|exact F].
Qed.

Lemma stored_peer peers p : (forall x, In x peers -> sized (pr_files x)) -> In p peers ->
  stored (pr_files p) <= stored (List.concat (map pr_files peers)).
Proof.
  induction peers as [|x peers IH]; intros S P; [destruct P|]. cbn [map List.concat]. rewrite stored_app.
  assert (0 <= stored (List.concat (map pr_files peers))).
  { apply stored_nonneg. intros f F. apply in_concat in F. destruct F as (l & L & F). apply in_map_iff in L.
    destruct L as (y & <- & Y). exact (S y (or_intror Y) f F). }
  assert (0 <= stored (pr_files x)) by (apply stored_nonneg; apply S; left; reflexivity).
  destruct P as [->|P]; [lia|]. specialize (IH (fun y Y => S y (or_intror Y)) P). lia.
Qed.

Lemma plan_exact ips self mine peers : fit ips self mine peers ->
  exists a, fair a (stored (everything mine peers)) (S (length peers)) /\
  match deviation_values (stored mine) (peers_capacity ips self (ask peers)) true with
  | Some plan => forall p, In p peers -> asked plan (pr_addr p) = Z.max 0 (stored (pr_files p) - a)
  | None => forall p, In p peers -> stored (pr_files p) <= a
  end.
Proof.
  intros [D T S B]. specialize (B _ (proj2 (bytes_iff _ _) eq_refl)). unfold everything in B. rewrite stored_app in B.
  assert (SP : forall p, In p peers -> sized (pr_files p)) by (intros p P; exact (sized_peer mine peers p S P)).
  assert (M : 0 <= stored mine) by (apply stored_nonneg; exact (proj1 (sized_part _ _ S))).
  assert (R : forall p, In p peers -> 0 <= stored (pr_files p) <= int64_max).
  { intros p P. split; [exact (stored_nonneg _ (SP p P))|]. pose proof (stored_peer peers p SP P). unfold int64_max. lia. }
  assert (P := caps_perm ips self peers D T R). set (caps := peers_capacity ips self (ask peers)) in *.
  assert (SU : sum_of caps = stored (List.concat (map pr_files peers))) by (rewrite (sum_of_perm _ _ P); apply sum_caps).
  assert (L : length caps = length peers) by (rewrite (Permutation_length P); apply map_length).
  destruct (join_exact (stored mine) caps) as (a & F & X).
  - rewrite Forall_forall. intros x Hx. apply (Permutation_in _ P) in Hx. apply in_map_iff in Hx. destruct Hx as (p & <- & I).
    exact (proj1 (R p I)).
  - exact M.
  - rewrite SU. exact B.
  - exists a. rewrite SU, L in F. unfold everything. rewrite stored_app. split; [exact F|].
    assert (IC : forall p, In p peers -> In (cap_of p) caps).
    { intros p I. apply (Permutation_in _ (Permutation_sym P)). apply in_map. exact I. }
    destruct (deviation_values (stored mine) caps true) as [plan|].
    + intros p I. destruct (Z.ltb_spec a (stored (pr_files p))) as [LT|GE].
      * assert (J : In (pr_addr p, stored (pr_files p) - a) plan).
        { apply X. exists (stored (pr_files p)). split; [exact (IC p I)|]. split; [reflexivity|lia]. }
        rewrite Z.max_r by lia. unfold asked. destruct (find _ plan) as [[k q]|] eqn:FD.
        -- apply find_some in FD. destruct FD as [F1 F2]. cbn [fst snd] in *. apply str_eqb_eq in F2. subst k.
           apply X in F1. destruct F1 as (v & V & -> & _).
           assert (v = stored (pr_files p)); [|lia].
           assert (ND : NoDup (map fst caps)) by apply caps_keys.
           clear -V ND IC I. specialize (IC p I). unfold cap_of in IC.
           induction caps as [|[k w] l IH]; [destruct V|]. cbn [map fst] in ND. apply NoDup_cons_iff in ND. destruct ND as [N1 N2].
           destruct V as [V|V], IC as [C|C].
           ++ congruence.
           ++ inversion V; subst. exfalso. apply N1. apply (in_map fst _ _ C).
           ++ inversion C; subst. exfalso. apply N1. apply (in_map fst _ _ V).
           ++ exact (IH C V N2).
        -- exfalso. apply (find_none _ _ FD) in J. cbn [fst] in J. rewrite str_eqb_refl in J. discriminate.
      * rewrite Z.max_l by lia. apply asked_out. intros q Q. apply X in Q. destruct Q as (v & V & -> & PO).
        apply (Permutation_in _ P) in V. apply in_map_iff in V. destruct V as (p' & E & I'). unfold cap_of in E. inversion E as [[E1 E2]].
        assert (p' = p); [|subst p'; lia].
        assert (FA := find_addr peers p (proj2 (proj2 D)) I). assert (FB := find_addr peers p' (proj2 (proj2 D)) I').
        rewrite E1 in FB. congruence.
    + intros p I. exact (X _ _ (IC p I)).
Qed.

Lemma stored_skip k l : stored (skipn k l) = stored l - stored (firstn k l).
Proof. rewrite <- (firstn_skipn k l) at 2. rewrite stored_app. lia. Qed.

(** What a server holds after a join told as done. *)
Lemma peer_after ok plan a p m : 0 <= m -> sized (pr_files p) -> 0 <= a ->
  (forall f, In f (pr_files p) -> snd f <= m) ->
  asked plan (pr_addr p) = Z.max 0 (stored (pr_files p) - a) ->
  forallb (fun f => ok (fst f)) (tried plan p) = true ->
  stored (pr_files (fst (give ok plan p))) <= a /\
  (a <= stored (pr_files p) -> a - m <= stored (pr_files (fst (give ok plan p)))) /\
  (stored (pr_files p) <= a -> fst (give ok plan p) = p) /\
  stored (snd (give ok plan p)) <= Z.max 0 (stored (pr_files p) - a) + m.
Proof.
  intros Hm S A B Q O. destruct (give_done ok plan p O) as [G1 G2]. rewrite G1, G2. unfold tried, give. rewrite Q.
  destruct (Z.eqb_spec (Z.max 0 (stored (pr_files p) - a)) 0) as [E|E].
  - change (stored []) with 0. repeat split; lia || reflexivity.
  - assert (LT : a < stored (pr_files p)) by lia. rewrite Z.max_r by lia. clear Q E. set (q := stored (pr_files p) - a) in *.
    assert (T := taken_bounds m Hm (pr_files p) q S B ltac:(lia) ltac:(lia)). rewrite stored_skip.
    repeat split; lia.
Qed.

(** ** Plans that ask for something *)
Lemma join_pos self caps plan : deviation_values self caps true = Some plan ->
  forall k q, In (k, q) plan -> 0 < q.
Proof.
  unfold deviation_values. destruct (_ =? 0); [discriminate|]. destruct (_ =? 0); [discriminate|].
  destruct (filter _ _) as [|x l] eqn:F; [discriminate|]. intros E k q H. inversion E; subst.
  rewrite <- F in H. apply filter_In in H. destruct H as [_ H]. apply Z.ltb_lt in H. exact H.
Qed.

Lemma join_some self caps plan : deviation_values self caps true = Some plan ->
  exists k q v, In (k, q) plan /\ 0 < q /\ In (k, v) caps.
Proof.
  intros D. assert (P := join_pos self caps plan D). revert D. unfold deviation_values. destruct (_ =? 0); [discriminate|]. destruct (_ =? 0); [discriminate|].
  destruct (filter _ _) as [|[k q] l] eqn:F; [discriminate|]. intros E. inversion E; subst.
  assert (H : In (k, q) ((k, q) :: l)) by (left; reflexivity). exists k, q.
  assert (Q := P k q H). rewrite <- F in H. apply filter_In in H. destruct H as [H _].
  apply in_map_iff in H. destruct H as ([k' v] & H & I). cbn [fst] in H. inversion H; subst.
  exists v. repeat split; [left; reflexivity|exact Q|exact I].
Qed.
