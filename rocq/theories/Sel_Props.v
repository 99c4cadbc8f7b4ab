(** Properties C158-C161: the load of data servers and the reports of servers. *)
From Coq Require Import List Bool Arith NArith ZArith Ascii Lia Permutation.
From Verif Require Import Str_Model Str_Proofs Util_Model Util_Proofs Api_Model Api_Proofs Panic_Model Panic_Proofs Sel_Model Sel_Spec Sel_Proofs.
Import ListNotations.
Local Open Scope list_scope.
Local Notation length := List.length.

(** ** C158: space-first takes the servers with the fewest bytes *)

(** [cap]: the stored bytes of each server that answers.  When the last look is more than a minute old,
    whatever was known before, the [n] servers taken are the first by stored bytes; servers that do not
    answer come last. *)
Theorem C158_least : forall (cap : str -> option Z) (answer : str -> option told_stat) h now ds n,
  (forall ip, match cap ip with
              | Some c => (0 <= c < int64_max)%Z /\ exists w, answer ip = Some (ToldStat (print_Z c) w)
              | None => answer ip = None
              end) ->
  (minute < now - kn_at (knows SpaceFirst h))%Z -> (n <= length ds)%nat ->
  exists l, snd (choose SpaceFirst false answer now ds n (knows SpaceFirst h)) = Some l /\ length l = n /\
    first_by (fun x y => forall cy, cap y = Some cy -> exists cx, cap x = Some cx /\ (cx <= cy)%Z) ds l.
Proof.
  intros cap answer h now ds n Hc Hs Hn.
  unfold choose. cbn [snd]. unfold refresh. apply Z.ltb_lt in Hs. rewrite Hs. cbn [kn_map].
  set (m := fetch SpaceFirst answer ds (kn_map (knows SpaceFirst h))).
  destruct (servers_least SpaceFirst m n ds (fetch_bounded _ _ _ _ (knows_bounded _ h)) Hn) as (l & rest & E & Hl & P & L).
  exists l. split; [exact E|]. split; [exact Hl|]. exists rest. split; [exact P|].
  assert (M : forall ip, In ip ds -> m ip = cap ip).
  { intros ip I. unfold m. rewrite fetch_in by exact I. specialize (Hc ip). destruct (cap ip) as [c|].
    - destruct Hc as (R & w & ->). cbn [option_map read_stat ts_capacity]. f_equal. apply to_int64_print. lia.
    - rewrite Hc. reflexivity. }
  intros x y Hx Hy cy Ey. specialize (L x y Hx Hy). unfold rank in L.
  rewrite (M y), Ey in L by (apply (Permutation_in _ (Permutation_sym P)), in_or_app; right; exact Hy).
  assert (Ix : In x ds) by (apply (Permutation_in _ (Permutation_sym P)), in_or_app; left; exact Hx).
  rewrite (M x Ix) in L. destruct (cap x) as [cx|] eqn:Ex.
  - exists cx. split; [reflexivity|exact L].
  - specialize (Hc y). rewrite Ey in Hc. cbn [top] in L. lia.
Qed.
Print Assumptions C158_least.

Definition ip_a : str := s2l "10.0.0.1:8100"%string.
Definition ip_b : str := s2l "10.0.0.2:8100"%string.
Definition ip_c : str := s2l "10.0.0.3:8100"%string.
Definition caps_ex (ip : str) : option Z :=
  if str_eqb ip ip_a then Some 500%Z else if str_eqb ip ip_b then Some 20%Z else if str_eqb ip ip_c then None else Some 70%Z.
Definition answer_ex (ip : str) : option told_stat := option_map (fun c => ToldStat (print_Z c) []) (caps_ex ip).

Example C158_least_ex : snd (choose SpaceFirst false answer_ex (2 * minute) [ip_a; ip_c; ip_b] 2 (knows SpaceFirst [])) = Some [ip_b; ip_a].
Proof. vm_compute. reflexivity. Qed.
Example C158_least_hyps : forall ip, match caps_ex ip with
              | Some c => (0 <= c < int64_max)%Z /\ exists w, answer_ex ip = Some (ToldStat (print_Z c) w)
              | None => answer_ex ip = None
              end.
Proof.
  intros ip. unfold answer_ex. destruct (caps_ex ip) as [c|] eqn:E; [|reflexivity]. split; [|exists []; reflexivity].
  unfold caps_ex in E. destruct (str_eqb ip ip_a); [injection E as <-; unfold int64_max; lia|].
  destruct (str_eqb ip ip_b); [injection E as <-; unfold int64_max; lia|].
  destruct (str_eqb ip ip_c); [discriminate E|]. injection E as <-. unfold int64_max; lia.
Qed.

(** Within the minute, or while another request is looking, nobody is asked: the first by what is known
    are taken, for both strategies; unknown servers come last. *)
Theorem C158_cached : forall k busy answer h now ds n, let kn := knows k h in
  (now - kn_at kn <= minute)%Z \/ busy = true -> (n <= length ds)%nat ->
  exists l, choose k busy answer now ds n kn = (kn, Some l) /\ length l = n /\
    first_by (fun x y => forall vy, kn_map kn y = Some vy -> match kn_map kn x with
                                                         | Some vx => (vx <= vy)%Z
                                                         | None => vy = match k with SpaceFirst => int64_max | IoFirst => (2 ^ 31 - 1)%Z end
                                                         end) ds l.
Proof.
  intros k busy answer h now ds n kn Hs Hn.
  assert (R : refresh k busy answer now ds kn = kn).
  { unfold refresh. destruct (minute <? now - kn_at kn)%Z eqn:E; [|reflexivity].
    apply Z.ltb_lt in E. destruct Hs as [Hs| ->]; [lia|reflexivity]. }
  unfold choose. rewrite R.
  destruct (servers_least k (kn_map kn) n ds (knows_bounded k h) Hn) as (l & rest & E & Hl & P & L).
  exists l. rewrite E. split; [reflexivity|]. split; [exact Hl|]. exists rest. split; [exact P|].
  intros x y Hx Hy vy Ey. specialize (L x y Hx Hy). unfold rank in L. rewrite Ey in L.
  assert (B := knows_bounded k h y vy Ey).
  destruct (kn_map kn x); [exact L|]. change (vy = top k). lia.
Qed.
Print Assumptions C158_cached.
Example C158_cached_ex :
  let kn := knows SpaceFirst [(false, answer_ex, (2 * minute)%Z, [ip_a; ip_b])] in
  kn_map kn ip_a = Some 500%Z /\ kn_map kn ip_c = None /\
  snd (choose SpaceFirst false answer_ex (2 * minute + 5) [ip_a; ip_b] 1 kn) = Some [ip_b].
Proof. vm_compute. repeat split. Qed.

(** A look at the servers is not repeated for those that join: a server that joined within the minute is
    taken after every known one, though it holds nothing. *)
Theorem C158_joined_refuted : forall answer h now ds n ip, let kn := knows SpaceFirst h in
  (now - kn_at kn <= minute)%Z -> (n < length ds)%nat -> NoDup ds -> In ip ds ->
  kn_map kn ip = None -> answer ip = Some (ToldStat (print_Z 0) []) ->
  (forall x, In x ds -> x <> ip -> exists v, kn_map kn x = Some v /\ (v < int64_max)%Z) ->
  exists l, snd (choose SpaceFirst false answer now ds n kn) = Some l /\ ~ In ip l.
Proof.
  intros answer h now ds n ip kn Hs Hn Hnd Hin Hk _ Hall.
  destruct (C158_cached SpaceFirst false answer h now ds n (or_introl Hs)) as (l & E & Hl & rest & P & L); [lia|].
  exists l. fold kn in E, L. rewrite E. split; [reflexivity|]. intros I.
  assert (Hlen := Permutation_length P). rewrite app_length in Hlen.
  destruct rest as [|y rest]; [cbn in Hlen; lia|].
  assert (Iy : In y ds) by (apply (Permutation_in _ (Permutation_sym P)), in_or_app; right; left; reflexivity).
  assert (Hny : y <> ip).
  { intros ->. apply (Permutation_NoDup P) in Hnd. apply NoDup_remove_2 in Hnd. apply Hnd, in_or_app. left. exact I. }
  destruct (Hall y Iy Hny) as (v & Ev & Lv).
  specialize (L ip y I (or_introl eq_refl) v Ev). rewrite Hk in L. lia.
Qed.
Print Assumptions C158_joined_refuted.
Example C158_joined_ex :
  let kn := knows SpaceFirst [(false, answer_ex, (2 * minute)%Z, [ip_a; ip_b])] in
  let answer ip := if str_eqb ip ip_c then Some (ToldStat (print_Z 0) []) else answer_ex ip in
  kn_map kn ip_c = None /\ snd (choose SpaceFirst false answer (2 * minute + 5) [ip_a; ip_b; ip_c] 2 kn) = Some [ip_b; ip_a].
Proof. vm_compute. repeat split. Qed.

(** The free space of a server is not asked for: of two servers the one with fewer stored bytes is
    taken, whatever [total] their disks hold, so also one that is full. *)
Theorem C158_free_refuted : forall answer a b (total : str -> Z) ca cb wa wb, a <> b ->
  answer a = Some (ToldStat (print_Z ca) wa) -> answer b = Some (ToldStat (print_Z cb) wb) ->
  (0 <= ca < cb)%Z -> (cb <= int64_max)%Z -> total a = ca -> (cb < total b)%Z ->
  snd (choose SpaceFirst false answer (minute + 1) [a; b] 1 known0) = Some [a] /\
  snd (choose SpaceFirst false answer (minute + 1) [b; a] 1 known0) = Some [a] /\
  (total a - ca = 0)%Z /\ (0 < total b - cb)%Z.
Proof.
  intros answer a b total ca cb wa wb Hne Ea Eb Hc Hb Ha Ht.
  assert (G : forall ds m, (m a = Some ca) -> m b = Some cb -> ds = [a; b] \/ ds = [b; a] ->
            select_servers (repeat (strategy_of SpaceFirst m) 1) ds = Some [a]).
  { intros ds m Ma Mb [-> | ->]; cbn [repeat strategy_of select_servers select_loop ip_select pop];
      unfold extremal_index; cbn [extremal_loop nth_error]; unfold less_used; rewrite Ma, Mb.
    - repeat (rewrite ?Ma, ?Mb, ?Z.ltb_irrefl; cbn [nth_error]).
      replace (cb <? ca)%Z with false by (symmetry; apply Z.ltb_ge; lia). reflexivity.
    - repeat (rewrite ?Ma, ?Mb, ?Z.ltb_irrefl; cbn [nth_error]).
      replace (ca <? cb)%Z with true by (symmetry; apply Z.ltb_lt; lia). reflexivity. }
  split; [|split; [|split; lia]]; unfold choose; cbn [snd]; unfold refresh;
    (replace (minute <? minute + 1 - kn_at known0)%Z with true by reflexivity); cbn [kn_map];
    (apply G; [| |auto]);
    (rewrite fetch_in by (cbn; auto)); rewrite ?Ea, ?Eb; cbn [option_map read_stat ts_capacity]; f_equal;
    apply to_int64_print; lia.
Qed.
Print Assumptions C158_free_refuted.
Example C158_free_ex : let total ip := if str_eqb ip ip_b then 20%Z else 100000%Z in
  total ip_b = 20%Z /\ caps_ex ip_b = Some 20%Z /\ caps_ex ip_a = Some 500%Z /\ (500 < total ip_a)%Z /\
  snd (choose SpaceFirst false answer_ex (minute + 1) [ip_a; ip_b] 1 known0) = Some [ip_b].
Proof. vm_compute. repeat split. Qed.

(** ** C159: io-first takes the servers with the lightest load *)

(** Missing for the full property: loads of 2^31 - 1 and more; a server that cannot read its drives. *)
Theorem C159_least_partial : forall (load : str -> option N) (answer : str -> option told_stat) h now ds n,
  (forall ip, match load ip with
              | Some w => (w < 2 ^ 31 - 1)%N /\ exists c, answer ip = Some (ToldStat c (print_N w))
              | None => answer ip = None
              end) ->
  (minute < now - kn_at (knows IoFirst h))%Z -> (n <= length ds)%nat ->
  exists l, snd (choose IoFirst false answer now ds n (knows IoFirst h)) = Some l /\ length l = n /\
    first_by (fun x y => forall wy, load y = Some wy -> exists wx, load x = Some wx /\ (wx <= wy)%N) ds l.
Proof.
  intros load answer h now ds n Hc Hs Hn.
  unfold choose. cbn [snd]. unfold refresh. apply Z.ltb_lt in Hs. rewrite Hs. cbn [kn_map].
  set (m := fetch IoFirst answer ds (kn_map (knows IoFirst h))).
  destruct (servers_least IoFirst m n ds (fetch_bounded _ _ _ _ (knows_bounded _ h)) Hn) as (l & rest & E & Hl & P & L).
  exists l. split; [exact E|]. split; [exact Hl|]. exists rest. split; [exact P|].
  assert (M : forall ip, In ip ds -> m ip = option_map Z.of_N (load ip)).
  { intros ip I. unfold m. rewrite fetch_in by exact I. specialize (Hc ip). destruct (load ip) as [c|].
    - destruct Hc as (R & w & ->). cbn [option_map read_stat ts_weighted]. f_equal. apply to_int32_small. lia.
    - rewrite Hc. reflexivity. }
  intros x y Hx Hy cy Ey. specialize (L x y Hx Hy). unfold rank in L.
  rewrite (M y), Ey in L by (apply (Permutation_in _ (Permutation_sym P)), in_or_app; right; exact Hy).
  assert (Ix : In x ds) by (apply (Permutation_in _ (Permutation_sym P)), in_or_app; left; exact Hx).
  rewrite (M x Ix) in L. cbn [option_map] in L. destruct (load x) as [cx|] eqn:Ex.
  - exists cx. split; [reflexivity|]. cbn [option_map] in L. lia.
  - specialize (Hc y). rewrite Ey in Hc. cbn [top option_map] in L. lia.
Qed.
Print Assumptions C159_least_partial.

Definition loads_ex (ip : str) : option told_stat :=
  if str_eqb ip ip_a then Some (ToldStat [] (print_N 900)) else if str_eqb ip ip_b then Some (ToldStat [] (print_N 30)) else None.
Example C159_least_ex : snd (choose IoFirst false loads_ex (2 * minute) [ip_c; ip_a; ip_b] 2 (knows IoFirst [])) = Some [ip_b; ip_a].
Proof. vm_compute. reflexivity. Qed.

Lemma io_two : forall (m : str -> option Z) a b va vb ds, a <> b -> m a = Some va -> m b = Some vb -> (va < vb)%Z ->
  ds = [a; b] \/ ds = [b; a] -> select_servers (repeat (strategy_of IoFirst m) 1) ds = Some [a].
Proof.
  intros m a b va vb ds Hne Ma Mb Hv [-> | ->]; cbn [repeat strategy_of select_servers select_loop ip_select pop];
    unfold extremal_index; cbn [extremal_loop nth_error]; unfold less_io; rewrite Ma, Mb.
  - repeat (rewrite ?Ma, ?Mb, ?Z.ltb_irrefl; cbn [nth_error]).
    replace (vb <? va)%Z with false by (symmetry; apply Z.ltb_ge; lia). reflexivity.
  - repeat (rewrite ?Ma, ?Mb, ?Z.ltb_irrefl; cbn [nth_error]).
    replace (va <? vb)%Z with true by (symmetry; apply Z.ltb_lt; lia). reflexivity.
Qed.

(** The load is milliseconds since the machine started, a number of 64 bits, but kept in 32 bits with
    sign: from 2^31 on it reads as negative, and the server is taken before every lighter one. *)
Theorem C159_wrap_refuted : forall answer a b wa wb ca cb, a <> b ->
  answer a = Some (ToldStat ca (print_N wa)) -> answer b = Some (ToldStat cb (print_N wb)) ->
  (2 ^ 31 <= wa < 2 ^ 32)%N -> (wb < 2 ^ 31)%N ->
  (wb < wa)%N /\
  snd (choose IoFirst false answer (minute + 1) [a; b] 1 known0) = Some [a] /\
  snd (choose IoFirst false answer (minute + 1) [b; a] 1 known0) = Some [a].
Proof.
  intros answer a b wa wb ca cb Hne Ea Eb Ha Hb. split; [lia|].
  assert (Na := to_int32_wraps wa Ha). assert (Nb := to_int32_small wb Hb).
  split; unfold choose; cbn [snd]; unfold refresh;
    (replace (minute <? minute + 1 - kn_at known0)%Z with true by reflexivity); cbn [kn_map];
    (apply (io_two _ a b (to_int32 (print_N wa)) (to_int32 (print_N wb))); [exact Hne| | |lia|auto]);
    (rewrite fetch_in by (cbn; auto)); rewrite ?Ea, ?Eb; reflexivity.
Qed.
Print Assumptions C159_wrap_refuted.
Example C159_wrap_ex :
  snd (choose IoFirst false (fun ip => if str_eqb ip ip_a then Some (ToldStat [] (print_N 3000000000)) else Some (ToldStat [] (print_N 5)))
         (minute + 1) [ip_b; ip_a] 1 known0) = Some [ip_a].
Proof. vm_compute. reflexivity. Qed.

(** A server that cannot read its drives tells no load, which reads as 0: it is taken before every server
    that has done anything. *)
Theorem C159_missing_refuted : forall answer a b wb ca cb, a <> b ->
  answer a = stat_info ca None -> answer b = Some (ToldStat cb (print_N wb)) -> (0 < wb < 2 ^ 31)%N ->
  snd (choose IoFirst false answer (minute + 1) [a; b] 1 known0) = Some [a] /\
  snd (choose IoFirst false answer (minute + 1) [b; a] 1 known0) = Some [a].
Proof.
  intros answer a b wb ca cb Hne Ea Eb Hb.
  assert (Nb : to_int32 (print_N wb) = Z.of_N wb) by (apply to_int32_small; lia).
  split; unfold choose; cbn [snd]; unfold refresh;
    (replace (minute <? minute + 1 - kn_at known0)%Z with true by reflexivity); cbn [kn_map];
    (apply (io_two _ a b 0%Z (to_int32 (print_N wb))); [exact Hne| | |lia|auto]);
    (rewrite fetch_in by (cbn; auto)); rewrite ?Ea, ?Eb; reflexivity.
Qed.
Print Assumptions C159_missing_refuted.
Example C159_missing_ex :
  snd (choose IoFirst false (fun ip => if str_eqb ip ip_a then stat_info 7 None else Some (ToldStat [] (print_N 5)))
         (minute + 1) [ip_b; ip_a] 1 known0) = Some [ip_a].
Proof. vm_compute. reflexivity. Qed.

(** ** C160: the report of a server tells its disks *)

(** Bytes, counts and loads are averages over the drives; the load of [/stat] is that of the report. *)
(** Partial.  Full statement: The report of a server has the averages of the counters over all
    drives and the sizes of its file system, and making one never harms the server.  It fails in
    general: [C160_times_refuted], [C160_none_refuted].  Refuted: times of reading and writing are
    always 0; without drives the report divides by zero and ends the server. *)
Theorem C160_average_partial : forall drives s, average drives = Some s ->
  averages io_rbytes drives s /\ averages io_wbytes drives s /\ averages io_rcount drives s /\ averages io_wcount drives s /\
  averages io_current drives s /\ averages io_time drives s /\ averages io_weighted drives s /\
  forall cap, stat_info cap (Some drives) = Some (ToldStat (print_Z cap) (print_N (io_weighted s))).
Proof.
  intros drives s H. unfold average in H. destruct drives as [|d ds]; [discriminate H|]. remember (d :: ds) as drives.
  assert (D : drives <> []) by (subst; discriminate). clear Heqdrives.
  assert (A : average drives = Some s) by (unfold average; destruct drives; [congruence|exact H]).
  assert (G : forall f, (forall x s, f (add_stat x s) = w64 (f x + f s)) -> f zero_stat = 0%N ->
     f s = (f (fold_left add_stat drives zero_stat) / N.of_nat (length drives))%N -> averages f drives s).
  { intros f Hf Hz Hs L. rewrite Hs. f_equal. rewrite sums_left; [rewrite Hz; lia|exact Hf|rewrite Hz; lia]. }
  assert (E : s = IOStat (io_rbytes (fold_left add_stat drives zero_stat) / N.of_nat (length drives))
     (io_wbytes (fold_left add_stat drives zero_stat) / N.of_nat (length drives)) (io_rcount (fold_left add_stat drives zero_stat) / N.of_nat (length drives))
     (io_wcount (fold_left add_stat drives zero_stat) / N.of_nat (length drives)) (io_rtime (fold_left add_stat drives zero_stat) / N.of_nat (length drives))
     (io_wtime (fold_left add_stat drives zero_stat) / N.of_nat (length drives)) (io_current (fold_left add_stat drives zero_stat) / N.of_nat (length drives))
     (io_time (fold_left add_stat drives zero_stat) / N.of_nat (length drives)) (io_weighted (fold_left add_stat drives zero_stat) / N.of_nat (length drives))) by congruence.
  repeat split; try (apply G; [reflexivity|reflexivity|rewrite E; reflexivity]).
  intros cap. unfold stat_info. rewrite A. reflexivity.
Qed.
Print Assumptions C160_average_partial.
Definition drive_a : iostat := IOStat 100 200 3 4 50 60 1 30 900.
Definition drive_b : iostat := IOStat 300 400 5 6 70 80 2 10 101.
Example C160_average_ex : average [drive_a; drive_b] = Some (IOStat 200 300 4 5 0 0 1 20 500).
Proof. vm_compute. reflexivity. Qed.

(** The times spent reading and writing are always reported as 0. *)
Theorem C160_times_refuted : forall drives s, average drives = Some s -> io_rtime s = 0%N /\ io_wtime s = 0%N.
Proof.
  intros drives s H. unfold average in H. destruct drives as [|d ds]; [discriminate H|].
  destruct (times_zero (d :: ds) zero_stat eq_refl eq_refl) as [H1 H2]. cbv zeta in H.
  remember (fold_left add_stat (d :: ds) zero_stat) as t. injection H as <-. cbn [io_rtime io_wtime].
  rewrite H1, H2. split; apply N.div_0_l; discriminate.
Qed.
Print Assumptions C160_times_refuted.
Example C160_times_ex : average [drive_a] = Some (IOStat 100 200 3 4 0 0 1 30 900) /\ io_rtime drive_a = 50%N.
Proof. vm_compute. split; reflexivity. Qed.

(** On a machine without drives a data server cannot tell its stored bytes, so is known to nobody,
    and the first report ends it. *)
Theorem C160_none_refuted : forall sv cap k answer ip ds m, sv_runs sv = true -> In ip ds ->
  answer ip = stat_info cap (Some []) ->
  fetch k answer ds m ip = None /\ sv_runs (fst (after_report sv [])) = false /\ snd (after_report sv []) = Gone.
Proof.
  intros sv cap k answer ip ds m R I A. split.
  - rewrite fetch_in by exact I. rewrite A. reflexivity.
  - unfold after_report, finish, report_panic. rewrite R. split; reflexivity.
Qed.
Print Assumptions C160_none_refuted.
(** With drives a report leaves the server running. *)
Theorem C160_report : forall sv drives, drives <> [] -> sv_runs sv = true ->
  sv_runs (fst (after_report sv drives)) = true /\ snd (after_report sv drives) = Replied.
Proof.
  intros sv drives H R. destruct drives as [|d ds]; [congruence|].
  unfold after_report, finish, report_panic, average. rewrite R. split; reflexivity.
Qed.
Print Assumptions C160_report.
Example C160_none_ex : stat_info 5 (Some []) = None /\ sv_runs (fst (after_report server_new [])) = false /\
  sv_runs (fst (after_report server_new [drive_a])) = true.
Proof. vm_compute. repeat split. Qed.

(** The bytes of a file system: those not free, those for use, and their sum, without what is
    reserved. *)
Theorem C160_info : forall frsize blocks bfree bavail, (bavail <= bfree)%N -> (bfree <= blocks)%N ->
  (frsize * blocks < 2 ^ 64)%N -> (blocks < 2 ^ 64)%N ->
  disk_info frsize blocks bfree bavail =
    Some (frsize * (blocks - bfree) + frsize * bavail, frsize * bavail, frsize * (blocks - bfree))%N.
Proof.
  intros f b fr av H1 H2 H3 H4. unfold disk_info.
  rewrite (sub64_le fr av) by lia. rewrite (sub64_le b (fr - av)) by lia.
  assert (L1 : (f * (b - (fr - av)) <= f * b)%N) by (apply N.mul_le_mono_l; lia).
  assert (L2 : (f * av <= f * (b - (fr - av)))%N) by (apply N.mul_le_mono_l; lia).
  rewrite !w64_small by lia.
  replace (_ <? _)%N with false by (symmetry; apply N.ltb_ge; exact L2).
  rewrite sub64_le by lia.
  assert (E : (f * (b - (fr - av)) = f * (b - fr) + f * av)%N) by (rewrite <- N.mul_add_distr_l; f_equal; lia).
  rewrite E. rewrite N.add_sub. reflexivity.
Qed.
Print Assumptions C160_info.

(** Whatever the kernel tells, a report is never of more free bytes than there are, and what it calls
    used is the rest. *)
Theorem C160_info_sane : forall frsize blocks bfree bavail t f u, disk_info frsize blocks bfree bavail = Some (t, f, u) ->
  (f <= t /\ u = t - f /\ t < 2 ^ 64)%N.
Proof.
  intros fs b fr av t f u H. unfold disk_info in H. cbv zeta in H.
  assert (B : forall n, (w64 n < 2 ^ 64)%N) by (intros n; unfold w64; apply N.mod_lt; discriminate).
  destruct (_ <? _)%N eqn:E in H; [discriminate H|]. apply N.ltb_ge in E.
  set (x := w64 (fs * av)) in *. set (y := w64 (fs * sub64 b (sub64 fr av))) in *.
  injection H as <- <- <-. split; [exact E|]. split; [|apply B]. apply sub64_le; [exact E|apply B].
Qed.
Print Assumptions C160_info_sane.
Example C160_info_ex : disk_info 4096 1000 300 250 = Some (950 * 4096, 250 * 4096, 700 * 4096)%N /\ disk_info 1 10 12 11 = None.
Proof. vm_compute. split; reflexivity. Qed.

(** ** C161: the reports in etcd are of servers with a lease *)

(** If no tick comes before the first lease, a report lives no longer than a lease; and after [EStop]
    there is none. *)
Definition first_granted (l : list sevent) : Prop := exists id l', l = EGranted id :: l'.
Definition nonzero (e : sevent) : Prop := match e with EGranted id => id <> 0%N | _ => True end.
Definition lease_ok (s : syncer) : Prop :=
  sy_lease s <> 0%N /\ match sy_report s with Some id => id <> 0%N /\ In id (sy_live s) | None => True end.

Lemma sync_ok : forall s, sy_lease s <> 0%N ->
  match sy_report s with Some id => id <> 0%N /\ In id (sy_live s) | None => True end -> lease_ok (sync s).
Proof.
  intros s L R. unfold sync. destruct (_ || _) eqn:E; [|split; assumption].
  split; cbn [sy_lease sy_report sy_live]; [exact L|]. split; [exact L|].
  apply orb_true_iff in E. destruct E as [E|E]; [apply N.eqb_eq in E; contradiction|].
  apply existsb_exists in E. destruct E as (x & I & E). apply N.eqb_eq in E. subst. exact I.
Qed.

Lemma step_ok : forall s e, nonzero e -> lease_ok s -> lease_ok (sync_step s e).
Proof.
  intros s e N0 [L R]. destruct e as [id| | | |id]; cbn [sync_step].
  - destruct (sy_runs s); [|split; assumption]. apply sync_ok; cbn [sy_lease sy_report sy_live]; [exact N0|].
    destruct (sy_report s); [|exact I]. destruct R as [R1 R2]. split; [exact R1|right; exact R2].
  - destruct (sy_runs s); [|split; assumption]. apply sync_ok; assumption.
  - destruct (sy_runs s); split; cbn; auto.
  - split; assumption.
  - split; cbn [sy_lease sy_report sy_live]; [exact L|]. destruct (sy_report s) as [l|]; [|exact I].
    destruct R as [R1 R2]. destruct (negb (l =? 0)%N && (l =? id)%N)%bool eqn:E; [exact I|]. split; [exact R1|].
    apply filter_In. split; [exact R2|]. apply andb_false_iff in E. destruct E as [E|E]; [|rewrite E; reflexivity].
    apply negb_false_iff, N.eqb_eq in E. contradiction.
Qed.

Lemma run_ok : forall l s, Forall nonzero l -> lease_ok s -> lease_ok (sync_run s l).
Proof.
  induction l as [|e l IH]; intros s F O; [exact O|]. inversion F; subst. apply IH; [assumption|]. apply step_ok; assumption.
Qed.

(** Partial.  Full statement: A report is in etcd while its server runs with a lease, is gone after
    the server stops, and after a crash goes with the lease.  It fails in general:
    [C161_forever_refuted].  Refuted otherwise: the report is put without lease and outlives a crash
    for ever. *)
Theorem C161_leased_partial : forall l, Forall nonzero l -> first_granted l ->
  match sy_report (sync_run syncer0 l) with
  | Some id => id <> 0%N /\ In id (sy_live (sync_run syncer0 l))
  | None => True
  end.
Proof.
  intros l F (id & l' & ->). inversion F; subst. apply (run_ok l' (sync_step syncer0 (EGranted id))); [assumption|].
  cbn [sync_step syncer0 sy_runs sy_live sy_report]. apply sync_ok; cbn; [assumption|exact I].
Qed.
Print Assumptions C161_leased_partial.

(** While the server runs and its lease lives, its report is there. *)
Theorem C161_present : forall l id l', (forall e, In e l' -> e = ETick \/ exists j, e = ELapse j /\ j <> id) ->
  id <> 0%N -> sy_runs (sync_run syncer0 l) = true ->
  sy_report (sync_run syncer0 (l ++ EGranted id :: l')) = Some id.
Proof.
  intros l id l' H N0 R. unfold sync_run. rewrite fold_left_app. cbn [fold_left].
  fold (sync_run syncer0 l). set (s := sync_run syncer0 l) in *.
  assert (G : forall s', sy_lease s' = id -> In id (sy_live s') -> sy_report s' = Some id ->
              sy_report (fold_left sync_step l' s') = Some id).
  { induction l' as [|e l' IH]; intros s' L I P; [exact P|]. cbn [fold_left].
    destruct (H e (or_introl eq_refl)) as [->|(j & -> & Hj)].
    - cbn [sync_step]. destruct (sy_runs s') eqn:Er; [|apply IH; auto; intros; apply H; right; assumption].
      unfold sync. destruct (_ || _); [|apply IH; auto; intros; apply H; right; assumption].
      apply IH; cbn [sy_lease sy_live sy_report]; auto; [intros; apply H; right; assumption|congruence].
    - cbn [sync_step]. rewrite P.
      replace (id =? j)%N with false by (symmetry; apply N.eqb_neq; congruence). rewrite andb_false_r.
      apply IH; cbn [sy_lease sy_live sy_report]; auto; [intros; apply H; right; assumption|].
      apply filter_In. split; [exact I|]. apply negb_true_iff, N.eqb_neq. congruence. }
  assert (Es : sync_step s (EGranted id) = Syncer id (id :: sy_live s) (Some id) true).
  { cbn [sync_step]. rewrite R. unfold sync. cbn [sy_lease sy_live sy_report sy_runs existsb].
    rewrite N.eqb_refl. rewrite orb_true_r. reflexivity. }
  rewrite Es. apply G; cbn; auto.
Qed.
Print Assumptions C161_present.

(** A server that stops takes its report away, whatever happened before. *)
Theorem C161_stopped : forall l l', sy_runs (sync_run syncer0 l) = true -> sy_report (sync_run syncer0 (l ++ EStop :: l')) = None.
Proof.
  intros l l' R. unfold sync_run. rewrite fold_left_app. cbn [fold_left]. fold (sync_run syncer0 l).
  set (s := sync_run syncer0 l) in *. cbn [sync_step]. rewrite R.
  assert (G : forall s', sy_runs s' = false -> sy_report s' = None -> sy_report (fold_left sync_step l' s') = None).
  { induction l' as [|e l' IH]; intros s' A B; [exact B|]. cbn [fold_left].
    apply IH; destruct e; cbn [sync_step]; rewrite ?A; cbn [sy_runs sy_report]; rewrite ?B; auto. }
  apply G; reflexivity.
Qed.
Print Assumptions C161_stopped.
Example C161_ex : let l := [EGranted 7; ETick; ELapse 7; ETick; EGranted 9; ETick] in
  Forall nonzero l /\ first_granted l /\ sy_report (sync_run syncer0 l) = Some 9%N /\
  sy_report (sync_run syncer0 [EGranted 7; ETick; ELapse 7; ETick]) = None /\
  sy_report (sync_run syncer0 (l ++ [EStop])) = None.
Proof.
  cbv zeta. split; [repeat (constructor; [cbn; try discriminate; exact I|]); constructor|].
  split; [eexists; eexists; reflexivity|]. vm_compute. repeat split.
Qed.

(** If no lease comes within the first minute, which is so for good after one failed [Grant]
    (C78_grant_refuted), the report is kept without lease: it outlives the server for ever. *)
Theorem C161_forever_refuted : forall l, (forall e, In e l -> exists id, e = ELapse id) ->
  sy_report (sync_run syncer0 (ETick :: ECrash :: l)) = Some 0%N /\ sy_runs (sync_run syncer0 (ETick :: ECrash :: l)) = false.
Proof.
  intros l H. unfold sync_run. cbn [fold_left].
  assert (G : forall s, sy_report s = Some 0%N -> sy_runs s = false ->
            sy_report (fold_left sync_step l s) = Some 0%N /\ sy_runs (fold_left sync_step l s) = false).
  { induction l as [|e l IH]; intros s A B; [split; assumption|]. cbn [fold_left].
    destruct (H e (or_introl eq_refl)) as (id & ->).
    apply IH; [intros e He; apply H; right; exact He| |]; cbn [sync_step sy_report sy_runs]; [rewrite A; reflexivity|exact B]. }
  apply G; reflexivity.
Qed.
Print Assumptions C161_forever_refuted.
Example C161_forever_ex : sy_report (sync_run syncer0 [ETick; ECrash; ELapse 1; ELapse 2]) = Some 0%N.
Proof. vm_compute. reflexivity. Qed.
