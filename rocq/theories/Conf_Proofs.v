From Coq Require Import List NArith ZArith Ascii Bool Lia String.
From Verif Require Import Str_Model Str_Spec Str_Proofs Util_Model Util_Spec Util_Proofs Registry_Model Conf_Model Conf_Spec.
Import ListNotations.
Local Open Scope list_scope.
Local Open Scope N_scope.

(** ** Sizes *)

Lemma unit_bounds : forall d, 0 < d -> 1024 ^ unit_of d <= d /\ d < 1024 * 1024 ^ unit_of d.
Proof.
  intros d H. unfold unit_of. change 1024 with (2 ^ 10). rewrite <- N.pow_mul_r, <- N.pow_add_r.
  destruct (N.log2_spec d H) as [L U]. pose proof (N.div_mod (N.log2 d) 10 ltac:(discriminate)) as D.
  pose proof (N.mod_lt (N.log2 d) 10 ltac:(discriminate)) as M. split.
  - eapply N.le_trans; [|exact L]. apply N.pow_le_mono_r; [discriminate|lia].
  - eapply N.lt_le_trans; [exact U|]. apply N.pow_le_mono_r; [discriminate|lia].
Qed.

Lemma unit_small : forall d, d <= 2 ^ 53 -> unit_of d <= 5.
Proof.
  intros d H. unfold unit_of. apply N.log2_le_mono in H. change (N.log2 (2 ^ 53)) with 53 in H.
  apply N.lt_succ_r. apply N.div_lt_upper_bound; [discriminate|]. lia.
Qed.

Lemma unit_pow : forall i, i <= 5 -> In (1024 ^ i) [1; 2 ^ 10; 2 ^ 20; 2 ^ 30; 2 ^ 40; 2 ^ 50].
Proof.
  intros i H. assert (i = 0 \/ i = 1 \/ i = 2 \/ i = 3 \/ i = 4 \/ i = 5) as C by lia.
  destruct C as [->|[->|[->|[->|[->| ->]]]]]; vm_compute; auto 10.
Qed.

Lemma unit_for_of : forall d, 0 < d -> d <= 2 ^ 53 -> unit_for d (1024 ^ unit_of d).
Proof.
  intros d H1 H2. split; [apply unit_pow, unit_small, H2|apply unit_bounds, H1].
Qed.

Lemma unit_for_unique : forall d u, unit_for d u -> u = 1024 ^ unit_of d.
Proof.
  intros d u (I & L & U). assert (0 < d) as P by (cbn in I; decompose [or] I; subst; try contradiction; lia).
  destruct (unit_bounds d P) as [L2 U2].
  assert (exists i, u = 1024 ^ i) as (i & ->).
  { cbn [In] in I. decompose [or] I; subst; try contradiction;
      [exists 0|exists 1|exists 2|exists 3|exists 4|exists 5]; vm_compute; reflexivity. }
  f_equal. assert (1024 ^ i < 1024 ^ (unit_of d + 1)) as A by (rewrite N.pow_add_r, N.mul_comm; change (1024 ^ 1) with 1024; lia).
  assert (1024 ^ unit_of d < 1024 ^ (i + 1)) as B by (rewrite N.pow_add_r, N.mul_comm; change (1024 ^ 1) with 1024; lia).
  apply N.pow_lt_mono_r_iff in A; [|reflexivity]. apply N.pow_lt_mono_r_iff in B; [|reflexivity]. lia.
Qed.

Lemma round_nearest : forall d u, 0 < u -> nearest d u (round_even d u).
Proof.
  intros d u H. unfold round_even, nearest. pose proof (N.div_mod d u ltac:(lia)) as D. pose proof (N.mod_lt d u ltac:(lia)) as M.
  remember (d / u) as q. remember (d mod u) as r. clear Heqq Heqr.
  destruct (N.ltb_spec (2 * r) u) as [L|L]; [|destruct (N.ltb_spec u (2 * r)) as [G|G]; [|destruct (N.even q) eqn:E]].
  - split; [nia|]. split; [nia|]. intros [A|A]; exfalso; nia.
  - split; [nia|]. split; [nia|]. intros [A|A]; exfalso; nia.
  - split; [nia|]. split; [nia|]. auto.
  - split; [nia|]. split; [nia|]. intros _. rewrite N.add_1_r, N.even_succ, <- N.negb_even, E. reflexivity.
Qed.

Lemma nearest_unique : forall d u p q, 0 < u -> nearest d u p -> nearest d u q -> p = q.
Proof.
  intros d u p q H (A1 & A2 & A3) (B1 & B2 & B3).
  assert (p <= q + 1) by nia. assert (q <= p + 1) by nia.
  destruct (N.eq_dec p q) as [|Ne]; [assumption|exfalso].
  assert (p = q + 1 \/ q = p + 1) as [-> | ->] by lia.
  - assert (2 * d = (2 * q + 1) * u) as T by nia. specialize (B3 (or_introl T)).
    assert (2 * (q + 1) * u = 2 * d + u) as T2 by nia. specialize (A3 (or_intror T2)).
    rewrite N.add_1_r, N.even_succ, <- N.negb_even, B3 in A3. discriminate.
  - assert (2 * d = (2 * p + 1) * u) as T by nia. specialize (A3 (or_introl T)).
    assert (2 * (p + 1) * u = 2 * d + u) as T2 by nia. specialize (B3 (or_intror T2)).
    rewrite N.add_1_r, N.even_succ, <- N.negb_even, A3 in B3. discriminate.
Qed.

Lemma to_upper_digits : forall n, to_upper (print_N n) = print_N n.
Proof.
  intros n. assert (F : Forall dec_digit (print_N n)).
  { pose proof (parse_print_N n) as P. apply parse_digits_iff in P. apply P. }
  induction F as [|c l H F IH]; [reflexivity|]. cbn. unfold to_upper in IH. rewrite IH. f_equal.
  unfold to_upper_char, dec_digit in *. destruct (N.leb_spec 97 (N_of_ascii c)); [lia|reflexivity].
Qed.

Lemma parse_shown : forall i n, i <= 5 -> n <= 1024 -> (i = 5 -> n < 1024) ->
  parse_size (print_N n ++ fst (nth (N.to_nat i) units ([], 0))) = Some (n * 1024 ^ i).
Proof.
  intros i n Hi Hn H5. apply parse_size_exact.
  - exists (print_N n), (fst (nth (N.to_nat i) units ([], 0))). split.
    + unfold to_upper. rewrite map_app. fold (to_upper (print_N n)). rewrite to_upper_digits. f_equal.
      assert (i = 0 \/ i = 1 \/ i = 2 \/ i = 3 \/ i = 4 \/ i = 5) as C by lia.
      destruct C as [->|[->|[->|[->|[->| ->]]]]]; vm_compute; reflexivity.
    + split; [apply parse_digits_iff, parse_print_N|].
      assert (i = 0 \/ i = 1 \/ i = 2 \/ i = 3 \/ i = 4 \/ i = 5) as C by lia.
      destruct C as [->|[->|[->|[->|[->| ->]]]]]; vm_compute; auto 10.
  - unfold int64_max. lia.
  - intros [E L]. assert (i = 5 \/ i < 5) as [->|C] by lia; [specialize (H5 eq_refl); lia|].
    assert (1024 ^ i < 1024 ^ 5) as P by (apply N.pow_lt_mono_r; [reflexivity|exact C]). rewrite E in P. vm_compute in P. discriminate.
  - assert (1024 ^ i <= 1024 ^ 5) as P by (apply N.pow_le_mono_r; [discriminate|exact Hi]).
    assert (n * 1024 ^ i <= 1024 * 1024 ^ 5) as Q by (apply N.mul_le_mono; assumption).
    eapply N.le_lt_trans; [exact Q|]. vm_compute. reflexivity.
Qed.

Lemma round_exact : forall q u, 0 < u -> round_even (q * u) u = q.
Proof.
  intros q u H. unfold round_even. rewrite N.div_mul, N.mod_mul by lia. destruct (N.ltb_spec (2 * 0) u); [reflexivity|lia].
Qed.

Lemma read_value : forall d i, 0 < d -> d <= 2 ^ 53 -> near i d ->
  exists s, show_size i d = Some s /\ parse_size s = Some (round_even d (1024 ^ unit_of d) * 1024 ^ unit_of d).
Proof.
  intros d i H1 H2 N1. destruct (unit_bounds d H1) as [L U]. pose proof (unit_small d H2) as S5.
  set (e := unit_of d) in *. set (u := 1024 ^ e) in *.
  assert (0 < u) as P by (apply N.neq_0_lt_0, N.pow_nonzero; discriminate).
  assert (H5 : e = 5 -> u = 2 ^ 50) by (intros E; unfold u; rewrite E; reflexivity).
  unfold show_size. destruct (N.eqb_spec d 0) as [E0|_]; [lia|].
  destruct N1 as [->|[[E Hi]|[-> G]]]; try fold e in E, Hi; try fold e in G; try fold e; try fold u in E; try fold u in G.
  - fold u. destruct (N.ltb_spec e 6) as [_|C]; [|lia]. eexists. split; [reflexivity|].
    assert (B : nearest d u (round_even d u)) by (apply round_nearest, P). destruct B as (B1 & B2 & _).
    apply parse_shown; [exact S5| |].
    + apply N.lt_succ_r. apply (N.mul_lt_mono_pos_r u); [exact P|]. nia.
    + intros E5. specialize (H5 E5). rewrite H5 in *. nia.
  - destruct (N.ltb_spec i 6) as [_|C]; [|lia]. eexists. split; [reflexivity|].
    assert (Eu : u = 1024 * 1024 ^ i). { unfold u. rewrite <- Hi, N.pow_add_r. change (1024 ^ 1) with 1024. lia. }
    assert (0 < 1024 ^ i) as Pi by (apply N.neq_0_lt_0, N.pow_nonzero; discriminate).
    assert (round_even d (1024 ^ i) = 1024) as -> by (rewrite E, Eu; apply round_exact, Pi).
    assert (round_even d u = 1) as ->. { rewrite E. rewrite <- (N.mul_1_l u) at 1. apply round_exact, P. }
    rewrite N.mul_1_l, Eu. apply parse_shown; [lia|lia|lia].
  - assert (e < 5) as E4.
    { assert (e = 5 \/ e < 5) as [E5|] by lia; [|assumption]. rewrite (H5 E5) in G. exfalso. lia. }
    destruct (N.ltb_spec (e + 1) 6) as [_|C]; [|lia]. eexists. split; [reflexivity|].
    assert (Eu : 1024 ^ (e + 1) = 1024 * u). { rewrite N.pow_add_r. change (1024 ^ 1) with 1024. unfold u. lia. }
    assert (round_even d (1024 ^ (e + 1)) = 1) as ->.
    { apply (nearest_unique d (1024 * u)); [lia|rewrite Eu; apply round_nearest; lia|]. split; [nia|]. split; [nia|]. intros [A|A]; exfalso; nia. }
    assert (round_even d u = 1024) as ->.
    { apply (nearest_unique d u); [lia|apply round_nearest; lia|]. split; [nia|]. split; [nia|]. intros _; reflexivity. }
    rewrite <- Eu, <- (N.mul_1_l (1024 ^ (e + 1))). apply parse_shown; [lia|lia|lia].
Qed.

Lemma size_read : forall d i, 0 < d -> d <= 2 ^ 53 -> near i d ->
  exists s u q, show_size i d = Some s /\ unit_for d u /\ nearest d u q /\ parse_size s = Some (q * u).
Proof.
  intros d i H1 H2 N1. destruct (read_value d i H1 H2 N1) as (s & S1 & P). exists s, (1024 ^ unit_of d), (round_even d (1024 ^ unit_of d)).
  split; [exact S1|]. split; [apply unit_for_of; assumption|]. split; [|exact P].
  apply round_nearest, N.neq_0_lt_0, N.pow_nonzero. discriminate.
Qed.

Lemma size_same_iff : forall d i u, d <= 2 ^ 53 -> near i d -> unit_for d u ->
  exists s v, show_size i d = Some s /\ parse_size s = Some v /\ (v = d <-> (u | d)).
Proof.
  intros d i u H2 N1 F. assert (0 < d) as H1 by (destruct F as (I & L & U); cbn in I; decompose [or] I; subst; try contradiction; lia).
  destruct (read_value d i H1 H2 N1) as (s & S1 & P). rewrite <- (unit_for_unique d u F) in P.
  exists s, (round_even d u * u). split; [exact S1|]. split; [exact P|]. split.
  - intros E. exists (round_even d u). lia.
  - intros [q Q]. assert (0 < u) as Pu by (destruct F as (I & L & U); lia). rewrite Q at 1. rewrite round_exact by exact Pu. lia.
Qed.

(** What is read is a whole number of its own unit. *)
Lemma read_stable : forall d i s v, 0 < d -> d <= 2 ^ 53 -> near i d -> show_size i d = Some s -> parse_size s = Some v ->
  0 < v /\ v <= 2 ^ 53 /\ forall i', near i' v -> exists s', show_size i' v = Some s' /\ parse_size s' = Some v.
Proof.
  intros d i s v H1 H2 N1 S1 P. destruct (read_value d i H1 H2 N1) as (s2 & S2 & P2). rewrite S1 in S2. injection S2 as <-.
  rewrite P in P2. injection P2 as ->. destruct (unit_bounds d H1) as [L U]. pose proof (unit_small d H2) as S5.
  set (u := 1024 ^ unit_of d) in *. assert (0 < u) as Pu by lia.
  pose proof (round_nearest d u Pu) as (B1 & B2 & B3). set (q := round_even d u) in *.
  assert (1 <= q) as Q1 by nia. assert (q <= 1024) as Q2 by nia.
  assert (V2 : q * u <= 2 ^ 53).
  { assert (2 ^ 53 mod u = 0) as M.
    { unfold u. assert (unit_of d = 0 \/ unit_of d = 1 \/ unit_of d = 2 \/ unit_of d = 3 \/ unit_of d = 4 \/ unit_of d = 5) as C by lia.
      destruct C as [->|[->|[->|[->|[->| ->]]]]]; vm_compute; reflexivity. }
    pose proof (N.div_mod (2 ^ 53) u ltac:(lia)) as D. rewrite M, N.add_0_r in D. remember (2 ^ 53 / u) as k.
    assert (q <= k) by nia. nia. }
  split; [nia|]. split; [exact V2|]. intros i' N2.
  assert (F : unit_for (q * u) (if q =? 1024 then 1024 * u else u)).
  { destruct (N.eqb_spec q 1024) as [E|E].
    - split; [|rewrite E; nia]. assert (unit_of d < 5) as C.
      { assert (unit_of d = 5 \/ unit_of d < 5) as [C|] by lia; [|assumption]. unfold u in *. rewrite C in *. rewrite E in V2. vm_compute in V2. congruence. }
      replace (1024 * u) with (1024 ^ (unit_of d + 1)); [apply unit_pow; lia|]. unfold u. rewrite N.pow_add_r. change (1024 ^ 1) with 1024. lia.
    - split; [apply unit_pow, S5|]. nia. }
  destruct (size_same_iff (q * u) i' _ V2 N2 F) as (s' & v & A & B & C). exists s'. split; [exact A|].
  rewrite B. f_equal. apply C. destruct (N.eqb_spec q 1024) as [E|E]; [rewrite E; apply N.divide_refl|apply N.divide_factor_r].
Qed.

(** ** Showing *)

Lemma shown_hidden : forall idx a b, same_but_secrets a b -> show_config idx a = show_config idx b.
Proof.
  intros idx a b (S1 & R1 & A1). unfold show_config, marshal, masked. cbn. rewrite S1, R1.
  destruct (cf_auth a), (cf_auth b); try reflexivity; exfalso; [destruct A1 as [_ A1]|destruct A1 as [A1 _]]; specialize (A1 eq_refl); discriminate.
Qed.

Lemma size_lines_some : forall idx l, Forall (fun x : str * N => 0 < snd x) l ->
  exists r, size_lines idx l = Some r /\ map fst r = map fst l /\
    forall k d, In (k, d) l -> exists t, show_size (idx d) d = Some t /\ In (k, t) r.
Proof.
  intros idx l F. induction F as [|[k d] l H F (r & R & M & A)]; [exists []; split; [reflexivity|split; [reflexivity|intros ? ? []]]|].
  cbn [size_lines snd] in *. assert (exists t, show_size (idx d) d = Some t) as (t & T).
  { unfold show_size. destruct (N.eqb_spec d 0); [lia|]. destruct (_ <? _); eexists; reflexivity. }
  rewrite T, R. exists ((k, t) :: r). split; [reflexivity|]. split; [cbn; rewrite M; reflexivity|].
  intros k' d' [E|I]; [injection E as <- <-; exists t; split; [exact T|left; reflexivity]|].
  destruct (A k' d' I) as (t' & T' & I'). exists t'. split; [exact T'|right; exact I'].
Qed.

Lemma size_lines_none : forall idx l k, In (k, 0) l -> size_lines idx l = None.
Proof.
  intros idx l k. induction l as [|[k' d] l IH]; intros []; cbn [size_lines].
  - injection H as -> ->. reflexivity.
  - rewrite (IH H). destruct (show_size _ _); reflexivity.
Qed.

Lemma shown_all : forall idx c, Forall (fun x : str * N => 0 < snd x) (cf_sizes c) ->
  exists l, show_config idx c = (200, l) /\
    (forall x, In x (cf_rest c) -> In x l) /\
    (forall k d, In (k, d) (cf_sizes c) -> exists t, show_size (idx d) d = Some t /\ In (k, t) l) /\
    List.length l = (3 + (match cf_auth c with Some _ => 2 | None => 0 end) + List.length (cf_sizes c) + List.length (cf_rest c))%nat.
Proof.
  intros idx c F. destruct (size_lines_some idx _ F) as (r & R & M & A).
  unfold show_config, marshal, masked. cbn [cf_sizes cf_etcd cf_auth cf_mail cf_rest]. rewrite R.
  eexists. split; [reflexivity|]. split; [|split].
  - intros x I. apply in_or_app. right. apply in_or_app. right. apply in_or_app. right. exact I.
  - intros k d I. destruct (A k d I) as (t & T & I'). exists t. split; [exact T|].
    apply in_or_app. right. apply in_or_app. right. apply in_or_app. left. exact I'.
  - rewrite !app_length. apply (f_equal (@List.length _)) in M. rewrite !map_length in M. rewrite M. destruct (cf_auth c) as [[? ?]|]; cbn; lia.
Qed.

(** ** Starting again *)

Lemma server_id_nonempty : forall name ip id port det, server_id name ip id port det <> [].
Proof. intros name ip id port det. unfold server_id, sid. cbn. destruct id; [destruct name|]; discriminate. Qed.

Lemma server_id_given : forall name ip id port det, id <> [] -> server_id name ip id port det = id.
Proof. intros name ip [|c id] port det H; [congruence|reflexivity]. Qed.

Lemma pick_again : forall e f d, d <> [] \/ f <> [] -> (e <> Some []) -> pick e (pick e f d) d = pick e f d.
Proof. intros [v|] f d H1 H2; cbn; [reflexivity|]. destruct f; [destruct d; reflexivity|reflexivity]. Qed.

Lemma pick_twice : forall e f d, pick e (pick e f d) d = pick e f d.
Proof. intros [v|] [|? ?] [|? ?]; reflexivity. Qed.

Lemma start_inv : forall tmp e f det c, start tmp e (Some f) det = Some c ->
  exists cache0, (match mf_cache f with [] => Some (128 * 2 ^ 20) | t => parse_size t end) = Some cache0 /\
   mc_cache c = (if cache0 =? 0 then 128 * 2 ^ 20 else cache0).
Proof.
  intros tmp e f det c H. unfold start in H. destruct (match mf_cache f with [] => _ | _ => _ end) as [x|]; [|discriminate].
  injection H as <-. exists x. split; reflexivity.
Qed.

Definition with_cache (n : N) (c : mconf) : mconf :=
  MConf (mc_port c) (mc_dir c) (mc_name c) (mc_ip c) (mc_id c) (mc_on c) (mc_group c) (mc_slots c) n (mc_path c) (mc_store c).

Lemma parse_size_nonempty : forall s v, parse_size s = Some v -> s <> [].
Proof. intros s v H ->. discriminate H. Qed.

Lemma start_again : forall idx tmp e f det det' c, good_log idx -> sane_env e -> tmp <> [] ->
  start tmp e (Some f) det = Some c -> mc_cache c <= 2 ^ 53 ->
  exists t v, show_size (idx (mc_cache c)) (mc_cache c) = Some t /\ parse_size t = Some v /\ 0 < mc_cache c /\
    start tmp e (persist idx true c) det' = Some (with_cache v c).
Proof.
  intros idx tmp e f det det' c G En Tm H B. pose proof H as H0.
  destruct (start_inv _ _ _ _ _ H) as (c0 & C0 & C1).
  assert (0 < mc_cache c) as P. { rewrite C1. destruct (N.eqb_spec c0 0); [reflexivity|lia]. }
  destruct (read_value (mc_cache c) (idx (mc_cache c)) P B (G _ P)) as (t & T & V).
  destruct (read_stable _ _ _ _ P B (G _ P) T V) as (V0 & _ & _).
  exists t. eexists. split; [exact T|]. split; [exact V|]. split; [exact P|].
  set (v := round_even _ _ * _) in *. clearbody v. unfold persist. rewrite T.
  unfold start in *. assert (Rf : s2l "raft"%string <> []) by discriminate.
  remember (s2l "8090"%string) as p8 eqn:E8. remember (s2l "raft"%string) as rf eqn:Er. clear E8 Er. clear H0.
  rewrite C0 in H. injection H as <-. cbn [mc_port mc_dir mc_name mc_ip mc_id mc_on mc_group mc_slots mc_cache mc_path mc_store with_cache start mf_cache mf_port mf_ip mf_dir mf_id mf_name mf_group mf_on mf_slots] in *.
  destruct t as [|tc t]; [discriminate V|]. rewrite V. destruct (N.eqb_spec v 0) as [E|_]; [lia|].
  assert (Ei : server_id (mf_name f) (pick (me_ip e) (pick (me_ip e) (mf_ip f) []) [])
      (pick (me_id e) (server_id (mf_name f) (pick (me_ip e) (mf_ip f) []) (pick (me_id e) (mf_id f) []) (pick (me_port e) (mf_port f) p8) det) [])
      (pick (me_port e) (pick (me_port e) (mf_port f) p8) p8) det' =
     server_id (mf_name f) (pick (me_ip e) (mf_ip f) []) (pick (me_id e) (mf_id f) []) (pick (me_port e) (mf_port f) p8) det).
  { set (i := server_id _ (pick (me_ip e) (mf_ip f) []) _ _ det). unfold sane_env in En.
    destruct (me_id e) as [x|] eqn:Ex.
    - assert (x <> []) as Nx by (intros ->; apply En; reflexivity).
      cbn [pick]. rewrite server_id_given by exact Nx. unfold i. cbn [pick]. rewrite server_id_given by exact Nx. reflexivity.
    - cbn [pick]. assert (i <> []) as Ni by (unfold i; apply server_id_nonempty). rewrite server_id_given; (destruct i; [contradiction Ni; reflexivity|]); [reflexivity|discriminate]. }
  rewrite Ei, !pick_twice.
  unfold with_cache. cbn [mc_port mc_dir mc_name mc_ip mc_id mc_on mc_group mc_slots mc_cache mc_path mc_store].
  clear Ei C0 C1 T V B P. destruct tmp as [|tt tmp]; [contradiction Tm; reflexivity|]. destruct rf as [|r0 rf]; [contradiction Rf; reflexivity|].
  destruct (me_dir e) as [[|? ?]|]; destruct (mf_dir f); destruct (mf_group f); reflexivity.
Qed.

Lemma restart_same : forall idx tmp e f det det' c, good_log idx -> sane_env e -> tmp <> [] ->
  start tmp e (Some f) det = Some c -> mc_cache c <= 2 ^ 53 ->
  exists c', start tmp e (persist idx true c) det' = Some c' /\ same_server c c' /\
    (forall u, unit_for (mc_cache c) u -> (mc_cache c' = mc_cache c <-> (u | mc_cache c))) /\
    forall det'', start tmp e (persist idx true c') det'' = Some c'.
Proof.
  intros idx tmp e f det det' c G En Tm H B.
  destruct (start_again idx tmp e f det det' c G En Tm H B) as (t & v & T & V & P & S1).
  exists (with_cache v c). split; [exact S1|]. split; [repeat (split; [reflexivity|]); reflexivity|]. split.
  - intros u F. destruct (size_same_iff _ _ u B (G _ P) F) as (t2 & v2 & T2 & V2 & I). rewrite T in T2. injection T2 as <-. rewrite V in V2. injection V2 as <-. exact I.
  - intros det''. destruct (read_stable _ _ _ _ P B (G _ P) T V) as (V0 & V1 & V2). destruct (V2 _ (G v V0)) as (t' & T' & W').
    unfold persist in S1. rewrite T in S1.
    destruct (start_again idx tmp e _ det' det'' (with_cache v c) G En Tm S1 V1) as (t3 & v3 & T3 & W3 & _ & S3).
    cbn [with_cache mc_cache] in T3. rewrite T' in T3. injection T3 as <-. rewrite W' in W3. injection W3 as <-. exact S3.
Qed.

Lemma dashes_app : forall a b, dashes (a ++ b) = dashes a ++ dashes b.
Proof.
  induction a as [|c a IH]; intros b; [reflexivity|]. cbn. destruct (ascii_dec c "."%char); [apply IH|]. cbn. rewrite IH. reflexivity.
Qed.

Lemma derived_differs : forall name port d1 d2, dashes d1 <> dashes d2 ->
  server_id name [] [] port d1 <> server_id name [] [] port d2.
Proof.
  intros name port d1 d2 H E. unfold server_id, sid, reg_addr in E. cbn [rc_id rc_name rc_addr] in E.
  apply app_inv_head in E. injection E as E. rewrite !dashes_app in E. apply app_inv_tail in E. contradiction.
Qed.
