(** Theorems about what data servers know of each other and hold after a join. *)
From Coq Require Import List Ascii ZArith Lia Bool Permutation.
From Verif Require Import Str_Model Str_Proofs Meta_Model Util_Model Util_Proofs Sel_Model Migrate_Model Migrate_Proofs Share_Model Share_Spec Share_Proofs.
Import ListNotations.
Local Open Scope list_scope.
Local Open Scope Z_scope.
Local Notation length := List.length.

(** For the examples: servers with files of given sizes. *)
Definition nm (s : String.string) : str := s2l s.
Definition srv (a : String.string) (up : bool) (d : option (list iostat)) (l : list (String.string * Z)) : peer :=
  Peer (nm a) up d (map (fun x => (nm (fst x), snd x)) l).
Definition a_drive : iostat := IOStat 1 1 1 1 1 1 1 1 1.

(** === C198: a plan is made of what the servers store === *)

(** Every server but the one asking is in the map once at most, whatever is discovered or answered. *)
Theorem C198_once : forall ips self answer,
  NoDup (map fst (peers_capacity ips self answer)) /\ ~ In self (map fst (peers_capacity ips self answer)).
Proof.
  intros ips self answer. split; [apply caps_keys|]. intros H. apply in_map_iff in H. destruct H as ([k v] & E & H).
  cbn [fst] in E. subst k. apply caps_in in H. destruct H as (_ & H & _). apply H. reflexivity.
Qed.
Print Assumptions C198_once.

(** Full statement: the same without the hypothesis that a server that answers tells what it
    stores.  Partial: servers whose drives can be read have one. *)
Theorem C198_known_partial : forall ips self peers, NoDup (map pr_addr peers) ->
  (forall p, In p peers -> pr_up p = true -> pr_drives p <> Some []) ->
  (forall p b, In p peers -> bytes_of (pr_files p) b -> 0 <= b < 2 ^ 63) ->
  forall a c, In (a, c) (peers_capacity ips self (ask peers)) <->
    In a ips /\ a <> self /\ exists p, In p peers /\ pr_addr p = a /\ pr_up p = true /\ bytes_of (pr_files p) c.
Proof.
  intros ips self peers ND T R a c.
  assert (R' : forall p, In p peers -> 0 <= stored (pr_files p) <= int64_max).
  { intros p P. specialize (R p _ P (proj2 (bytes_iff _ _) eq_refl)). unfold int64_max. lia. }
  rewrite caps_in. split.
  - intros (A & B & h & C & ->). split; [exact A|]. split; [exact B|].
    destruct (ask_in peers a h C) as (p & P1 & P2 & P3). exists p. split; [exact P1|]. split; [exact P2|].
    assert (U : pr_up p = true) by (unfold stat_of in P3; destruct (pr_up p); [reflexivity|discriminate]).
    split; [exact U|]. rewrite (stat_tells p U (T p P1 U)) in P3. inversion P3. rewrite (to_int64_print _ (R' p P1)).
    apply bytes_iff. reflexivity.
  - intros (A & B & p & P1 & <- & U & C). split; [exact A|]. split; [exact B|]. apply bytes_iff in C. subst c.
    exists (print_Z (stored (pr_files p))). rewrite (ask_of peers p ND P1). split; [exact (stat_tells p U (T p P1 U))|].
    symmetry. apply to_int64_print. exact (R' p P1).
Qed.
Print Assumptions C198_known_partial.

Definition three : list peer :=
  [srv "a" true (Some [a_drive]) [("x.0"%string, 5); ("y.0"%string, 7)]; srv "b" true None [("x.1"%string, 5)]; srv "c" false None [("y.1"%string, 7)]].

(** A server that is down is left out, the own address is skipped however often it is discovered. *)
Example C198_known_case :
  NoDup (map pr_addr three) /\
  (forall p, In p three -> pr_up p = true -> pr_drives p <> Some []) /\
  (forall p b, In p three -> bytes_of (pr_files p) b -> 0 <= b < 2 ^ 63) /\
  peers_capacity [nm "me"; nm "a"; nm "b"; nm "me"; nm "c"] (nm "me") (ask three) = [(nm "a", 12); (nm "b", 5)].
Proof.
  split. { repeat constructor; cbn; intuition discriminate. }
  split. { intros p [<-|[<-|[<-|[]]]] U; cbn; discriminate. }
  split. { intros p b [<-|[<-|[<-|[]]]] B; apply bytes_iff in B; subst b; vm_compute; split; congruence. }
  vm_compute. reflexivity.
Qed.

(** Refuted: a server without readable drives answers with 500, which is read as storing nothing. *)
Theorem C198_fault_refuted : forall ips self peers p, NoDup (map pr_addr peers) -> In p peers ->
  In (pr_addr p) ips -> pr_addr p <> self -> pr_up p = true -> pr_drives p = Some [] ->
  In (pr_addr p, 0) (peers_capacity ips self (ask peers)).
Proof.
  intros ips self peers p ND P I N U D. apply caps_in. split; [exact I|]. split; [exact N|].
  exists []. rewrite (ask_of peers p ND P). unfold stat_of. rewrite U, D. split; reflexivity.
Qed.
Print Assumptions C198_fault_refuted.

(** So a server that leaves gives all it has to the one that has most. *)
Example C198_fault_case :
  let peers := [srv "a" true (Some []) [("x.0"%string, 90)]; srv "b" true (Some [a_drive]) [("y.0"%string, 10)]] in
  peers_capacity [nm "a"; nm "b"] (nm "me") (ask peers) = [(nm "a", 0); (nm "b", 10)] /\
  deviation_values 10 (peers_capacity [nm "a"; nm "b"] (nm "me") (ask peers)) false = Some [(nm "a", 10)].
Proof. vm_compute. split; reflexivity. Qed.

(** === C199: after a join the servers hold fair shares === *)

(** Whatever is asked, whatever fails: every file is where it was or at the server that joined, once. *)
Theorem C199_moved : forall ok ips self mine peers told peers' mine',
  join ok ips self mine peers = (told, peers', mine') ->
  Permutation (everything mine peers) (everything mine' peers') /\ map pr_addr peers' = map pr_addr peers.
Proof.
  intros ok ips self mine peers told peers' mine' J. unfold join in J.
  destruct (deviation_values _ _ true) as [plan|]; inversion J; subst; clear J; [|split; reflexivity].
  split.
  - unfold everything. rewrite <- app_assoc. apply Permutation_app_head. apply gives_move.
  - rewrite !map_map. apply map_ext. intros p. unfold give. destruct (_ =? 0); reflexivity.
Qed.
Print Assumptions C199_moved.

(** A join told as done: nobody else holds more than the share; a server that had at least the share
    is not left with less than the share and one file; a server that had less is untouched. *)
Theorem C199_share : forall ok ips self mine peers peers' mine',
  fit ips self mine peers -> join ok ips self mine peers = (true, peers', mine') ->
  forall t a m, bytes_of (everything mine peers) t -> fair a t (S (length peers)) ->
  (forall f, In f (everything mine peers) -> snd f <= m) -> 0 <= m ->
  forall i p p' b b', nth_error peers i = Some p -> nth_error peers' i = Some p' ->
    bytes_of (pr_files p) b -> bytes_of (pr_files p') b' ->
    b' <= a /\ (a <= b -> a - m <= b') /\ (b <= a -> p' = p).
Proof.
  intros ok ips self mine peers peers' mine' Fi J t a m Bt Fa Mx Hm i p p' b b' N N' Bb Bb'.
  apply bytes_iff in Bt, Bb, Bb'. subst t b b'.
  destruct (plan_exact ips self mine peers Fi) as (a0 & Fa0 & X).
  assert (a0 = a) by (apply (fair_unique a0 a _ _ Fa0 Fa); lia). subst a0.
  unfold join in J. destruct (deviation_values _ _ true) as [plan|]; [|discriminate]. inversion J as [[J1 J2 J3]]. subst peers'.
  rewrite map_map, nth_error_map, N in N'. cbn [option_map] in N'. inversion N'. subst p'. clear N' J3.
  assert (P : In p peers) by (apply (nth_error_In _ i); exact N).
  rewrite forallb_forall in J1.
  assert (0 <= a).
  { assert (0 <= stored (everything mine peers)) by (apply stored_nonneg; apply Fi). unfold fair in Fa. nia. }
  destruct (peer_after ok plan a p m Hm) as (A & B & C & _); try assumption.
  - exact (sized_peer mine peers p (fit_sized _ _ _ _ Fi) P).
  - intros f F. apply Mx. apply in_or_app. right. apply in_concat. exists (pr_files p). split; [apply in_map; exact P|exact F].
  - exact (X p P).
  - exact (J1 p P).
  - repeat split; assumption.
Qed.
Print Assumptions C199_share.

(** Full statement: the same without the hypothesis that every other server had at least the share.
    The server that joins holds the share and at most a file more from each. *)
Theorem C199_joiner_partial : forall ok ips self mine peers peers' mine',
  fit ips self mine peers -> join ok ips self mine peers = (true, peers', mine') ->
  forall t a m, bytes_of (everything mine peers) t -> fair a t (S (length peers)) ->
  (forall f, In f (everything mine peers) -> snd f <= m) -> 0 <= m ->
  (forall p b, In p peers -> bytes_of (pr_files p) b -> a <= b) ->
  forall b', bytes_of mine' b' -> b' <= a + Z.of_nat (length peers) * m.
Proof.
  intros ok ips self mine peers peers' mine' Fi J t a m Bt Fa Mx Hm All b' Bb'.
  apply bytes_iff in Bt, Bb'. subst t b'.
  destruct (plan_exact ips self mine peers Fi) as (a0 & Fa0 & X).
  assert (a0 = a) by (apply (fair_unique a0 a _ _ Fa0 Fa); lia). subst a0.
  unfold join in J. destruct (deviation_values _ _ true) as [plan|]; [|discriminate]. inversion J as [[J1 J2 J3]]. subst mine' peers'.
  rewrite forallb_forall in J1. rewrite stored_app.
  assert (A0 : 0 <= a).
  { assert (0 <= stored (everything mine peers)) by (apply stored_nonneg; apply Fi). unfold fair in Fa. nia. }
  assert (G : forall l, (forall p, In p l -> In p peers) ->
     stored (List.concat (map snd (map (give ok plan) l))) <= stored (List.concat (map pr_files l)) - Z.of_nat (length l) * a + Z.of_nat (length l) * m).
  { induction l as [|p l IH]; intros I; [cbn; lia|]. cbn [map List.concat length]. rewrite !stored_app, Nat2Z.inj_succ.
    specialize (IH (fun x H => I x (or_intror H))). assert (P : In p peers) by (apply I; left; reflexivity).
    destruct (peer_after ok plan a p m Hm) as (_ & _ & _ & D); try assumption.
    - exact (sized_peer mine peers p (fit_sized _ _ _ _ Fi) P).
    - intros f F. apply Mx. apply in_or_app. right. apply in_concat. exists (pr_files p). split; [apply in_map; exact P|exact F].
    - exact (X p P).
    - exact (J1 p P).
    - assert (a <= stored (pr_files p)) by (apply (All p _ P); apply bytes_iff; reflexivity). lia. }
  specialize (G peers (fun p H => H)). unfold fair in Fa. unfold everything in Fa. rewrite stored_app in Fa.
  rewrite Nat2Z.inj_succ in Fa. lia.
Qed.
Print Assumptions C199_joiner_partial.

Lemma fits_by : forall ips self mine peers,
  (forall a, In a ips <-> a = self \/ In a (map pr_addr peers)) -> ~ In self (map pr_addr peers) -> NoDup (map pr_addr peers) ->
  Forall (fun p => tells p) peers -> Forall (fun f => 0 < snd f) (everything mine peers) -> stored (everything mine peers) < 2 ^ 53 ->
  fit ips self mine peers.
Proof.
  intros ips self mine peers A B C D E F. rewrite Forall_forall in D. rewrite Forall_forall in E. constructor.
  - repeat split; try assumption; apply A.
  - exact D.
  - exact E.
  - intros b Bb. apply bytes_iff in Bb. subst b. exact F.
Qed.

Definition two : list peer :=
  [srv "a" true (Some [a_drive]) [("x.0"%string, 5); ("y.0"%string, 7); ("z.0"%string, 6)];
   srv "b" true None [("x.1"%string, 5); ("y.1"%string, 7); ("z.1"%string, 6)]].

Example C199_share_case : fit [nm "me"; nm "a"; nm "b"] (nm "me") [] two /\
  bytes_of (everything [] two) 36 /\ fair 12 36 3 /\
  join (fun _ => true) [nm "me"; nm "a"; nm "b"] (nm "me") [] two =
    (true, [srv "a" true (Some [a_drive]) [("z.0"%string, 6)]; srv "b" true None [("z.1"%string, 6)]],
     [(nm "x.0", 5); (nm "y.0", 7); (nm "x.1", 5); (nm "y.1", 7)]).
Proof.
  split.
  { apply fits_by.
    - intros a. cbn. intuition.
    - cbn. intuition discriminate.
    - repeat constructor; cbn; intuition discriminate.
    - repeat constructor; cbn; discriminate.
    - repeat constructor.
    - vm_compute. reflexivity. }
  split; [apply bytes_iff; reflexivity|]. split; [split; vm_compute; congruence|]. vm_compute. reflexivity.
Qed.

(** Refuted: with a server below the share, the one that joins is given the missing bytes too and
    ends with twice its share or more, though every file is a byte and nothing fails. *)
Definition nine : list peer :=
  [srv "a" true None (map (fun s => (s, 1)) ["1"; "2"; "3"; "4"; "5"; "6"; "7"; "8"; "9"]%string); srv "b" true None []; srv "c" true None []].
Theorem C199_joiner_refuted : exists ips self peers peers' mine',
  fit ips self [] peers /\ join (fun _ => true) ips self [] peers = (true, peers', mine') /\
  (forall f, In f (everything [] peers) -> snd f <= 1) /\
  exists t a b, bytes_of (everything [] peers) t /\ fair a t (S (length peers)) /\ bytes_of mine' b /\ 2 * a <= b /\
    exists p, In p peers' /\ bytes_of (pr_files p) 0.
Proof.
  exists [nm "me"; nm "a"; nm "b"; nm "c"], (nm "me"), nine.
  exists [srv "a" true None (map (fun s => (s, 1)) ["7"; "8"; "9"]%string); srv "b" true None []; srv "c" true None []].
  exists (map (fun s => (nm s, 1)) ["1"; "2"; "3"; "4"; "5"; "6"]%string).
  split.
  { apply fits_by.
    - intros a. cbn. intuition.
    - cbn. intuition discriminate.
    - repeat constructor; cbn; intuition discriminate.
    - repeat constructor; cbn; discriminate.
    - repeat constructor.
    - vm_compute. reflexivity. }
  split; [vm_compute; reflexivity|].
  split. { intros f F. cbn in F. decompose [or] F; subst; try contradiction; cbn; lia. }
  exists 9, 3, 6. split; [apply bytes_iff; reflexivity|]. split; [split; vm_compute; congruence|].
  split; [apply bytes_iff; reflexivity|]. split; [lia|].
  exists (srv "b" true None []). split; [right; left; reflexivity|apply bytes_iff; reflexivity].
Qed.
Print Assumptions C199_joiner_refuted.

(** Refuted: if nobody holds more than the share there is nothing to take, and failure is told. *)
Theorem C199_nothing_refuted : forall ok ips self mine peers,
  fit ips self mine peers ->
  (forall t a, bytes_of (everything mine peers) t -> fair a t (S (length peers)) ->
     forall p b, In p peers -> bytes_of (pr_files p) b -> b <= a) ->
  join ok ips self mine peers = (false, peers, mine).
Proof.
  intros ok ips self mine peers Fi H. destruct (plan_exact ips self mine peers Fi) as (a & Fa & X).
  specialize (H _ a (proj2 (bytes_iff _ _) eq_refl) Fa). unfold join.
  destruct (deviation_values _ _ true) as [plan|] eqn:D; [exfalso|reflexivity].
  assert (Z0 : forall p, In p peers -> asked plan (pr_addr p) = 0).
  { intros p P. rewrite (X p P). specialize (H p _ P (proj2 (bytes_iff _ _) eq_refl)). lia. }
  destruct (join_some _ _ _ D) as (k & q & v & K & Q & V).
  apply caps_in in V. destruct V as (_ & _ & h & V & _). destruct (ask_in peers k h V) as (p & P & <- & _).
  specialize (Z0 p P). unfold asked in Z0.
  destruct (find (fun x => str_eqb (fst x) (pr_addr p)) plan) as [[k q']|] eqn:F.
  - apply find_some in F. destruct F as [F _]. cbn [snd] in Z0. subst q'. assert (Y := join_pos _ _ _ D _ _ F). lia.
  - apply (find_none _ _ F) in K. cbn [fst] in K. rewrite str_eqb_refl in K. discriminate.
Qed.
Print Assumptions C199_nothing_refuted.

Example C199_nothing_case :
  join (fun _ => true) [nm "me"; nm "a"] (nm "me") [] [srv "a" true None []] = (false, [srv "a" true None []], []) /\
  join (fun _ => true) [nm "me"; nm "a"] (nm "me") [(nm "x.0", 4)] [srv "a" true None [("x.1"%string, 4)]] =
    (false, [srv "a" true None [("x.1"%string, 4)]], [(nm "x.0", 4)]) /\
  fit [nm "me"; nm "a"] (nm "me") [(nm "x.0", 4)] [srv "a" true None [("x.1"%string, 4)]] /\
  fair 4 8 2.
Proof.
  split; [vm_compute; reflexivity|]. split; [vm_compute; reflexivity|]. split.
  { apply fits_by.
    - intros a. cbn. intuition.
    - cbn. intuition discriminate.
    - repeat constructor; cbn; intuition discriminate.
    - repeat constructor; cbn; discriminate.
    - repeat constructor.
    - vm_compute. reflexivity. }
  split; vm_compute; congruence.
Qed.
