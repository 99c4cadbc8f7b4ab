(** Proofs about moving objects. *)
From Coq Require Import Lia.
From Verif Require Export Migrate_Spec.
Local Notation length := List.length.
Local Open Scope list_scope.

(** ** Arithmetic of the plan *)

Lemma rne_div_bounds : forall n d, (0 < d)%Z ->
  (n / d <= rne_div n d <= n / d + 1)%Z.
Proof.
  intros n d Hd. unfold rne_div.
  destruct (2 * (n mod d) <? d)%Z; [lia|].
  destruct (d <? 2 * (n mod d))%Z; [lia|].
  destruct (Z.even (n / d)); lia.
Qed.

Lemma rne_div_exact : forall k d, (0 < d)%Z -> rne_div (d * k) d = k.
Proof.
  intros k d Hd. unfold rne_div.
  replace (d * k)%Z with (k * d)%Z by ring.
  rewrite Z.div_mul by lia. rewrite Z.mod_mul by lia.
  destruct (2 * 0 <? d)%Z eqn:E; [reflexivity|].
  apply Z.ltb_ge in E. lia.
Qed.

Lemma rne_div_up : forall n d, (0 < d)%Z -> (d < 2 * (n mod d))%Z -> rne_div n d = (n / d + 1)%Z.
Proof.
  intros n d Hd H. unfold rne_div.
  destruct (2 * (n mod d) <? d)%Z eqn:E; [apply Z.ltb_lt in E; lia|].
  destruct (d <? 2 * (n mod d))%Z eqn:E2; [reflexivity|apply Z.ltb_ge in E2; lia].
Qed.

Lemma ceil_is : forall m p a, (0 < p)%Z -> (p * (a - 1) < m <= p * a)%Z -> (- ((- m) / p))%Z = a.
Proof.
  intros m p a Hp H.
  assert ((- m) / p = - a)%Z; [|lia].
  symmetry. apply (Z.div_unique _ _ _ (p * a - m))%Z; [left; lia|ring].
Qed.

Lemma ceil_div64_exact : forall total size,
  (0 <= total < 2 ^ 53)%Z -> (0 < size)%Z -> is_ceiling (ceil_div64 total size) total size.
Proof.
  intros total size Ht Hs. unfold ceil_div64, is_ceiling.
  destruct (total =? 0)%Z eqn:E0; [apply Z.eqb_eq in E0; lia|apply Z.eqb_neq in E0].
  destruct (total <? size)%Z eqn:E1; [apply Z.ltb_lt in E1; lia|apply Z.ltb_ge in E1].
  set (q := (total / size)%Z). set (r := (total mod size)%Z).
  assert (Hqr : total = (size * q + r)%Z) by (apply Z.div_mod; lia).
  assert (Hr : (0 <= r < size)%Z) by (apply Z.mod_pos_bound; lia).
  assert (Hq : (1 <= q)%Z) by (apply Z.div_le_lower_bound; lia).
  assert (Hq53 : (q < 2 ^ 53)%Z) by nia.
  cbv zeta. set (l := Z.log2 q).
  assert (Hl : (2 ^ l <= q < 2 ^ (Z.succ l))%Z) by (apply Z.log2_spec; lia).
  assert (Hl0 : (0 <= l)%Z) by apply Z.log2_nonneg.
  assert (Hl52 : (l <= 52)%Z).
  { assert (l < 53)%Z; [|lia]. apply Z.log2_lt_pow2; lia. }
  destruct (l <=? 52)%Z eqn:E2; [|apply Z.leb_gt in E2; lia].
  set (p := (2 ^ (52 - l))%Z).
  assert (Hp : (0 < p)%Z) by (apply Z.pow_pos_nonneg; lia).
  assert (H2p : (2 ^ 53 = 2 ^ l * (2 * p))%Z).
  { unfold p. rewrite <- Z.pow_succ_r by lia. rewrite <- Z.pow_add_r by lia. f_equal. lia. }
  assert (Hsz : (size < 2 * p)%Z).
  { assert (size * 2 ^ l < 2 ^ l * (2 * p))%Z; [|nia].
    rewrite <- H2p. nia. }
  destruct (Z.eq_dec r 0) as [Hr0|Hr0].
  - replace (total * p)%Z with (size * (q * p))%Z by (rewrite Hqr, Hr0; ring).
    rewrite rne_div_exact by lia.
    rewrite (ceil_is (q * p) p q) by nia. nia.
  - assert (Hm : (q * p < rne_div (total * p) size <= q * p + p)%Z).
    { assert (Hd : (total * p / size = q * p + r * p / size)%Z).
      { replace (total * p)%Z with (q * p * size + r * p)%Z by (rewrite Hqr; ring).
        apply Z.div_add_l. lia. }
      assert (Hrp : (0 <= r * p / size < p)%Z).
      { split; [apply Z.div_pos; nia|apply Z.div_lt_upper_bound; nia]. }
      pose proof (rne_div_bounds (total * p) size Hs) as Hb.
      destruct (Z.eq_dec (r * p / size) 0) as [Hz|Hz]; [|lia].
      assert (Hsmall : (r * p < size)%Z).
      { apply Z.div_small_iff in Hz; [|lia]. destruct Hz; nia. }
      rewrite rne_div_up; [lia|lia|].
      replace (total * p)%Z with (r * p + q * p * size)%Z by (rewrite Hqr; ring).
      rewrite Z.mod_add by lia. rewrite Z.mod_small by nia. nia. }
    rewrite (ceil_is _ p (q + 1)) by nia. nia.
Qed.

Lemma f64_small : forall z, (z < 2 ^ 53)%Z -> f64 z = z.
Proof. intros z H. unfold f64. destruct (z <? 2 ^ 53)%Z eqn:E; [reflexivity|apply Z.ltb_ge in E; lia]. Qed.

Lemma sum_of_nonneg : forall l, Forall (fun kv => (0 <= snd kv)%Z) l -> (0 <= sum_of l)%Z.
Proof. intros l H. induction H; cbn [sum_of fold_right]; [lia|]. unfold sum_of in IHForall. lia. Qed.

Lemma sum_of_cons : forall kv l, sum_of (kv :: l) = (snd kv + sum_of l)%Z.
Proof. reflexivity. Qed.

Lemma total64_exact : forall peers self,
  Forall (fun kv => (0 <= snd kv)%Z) peers -> (0 <= self)%Z -> (self + sum_of peers < 2 ^ 53)%Z ->
  total64 self peers = (self + sum_of peers)%Z.
Proof.
  intros peers self Hp Hs Hlt. unfold total64.
  rewrite f64_small by (pose proof (sum_of_nonneg _ Hp); lia).
  revert self Hs Hlt. induction Hp as [|kv l Hkv Hl IH]; intros self Hs Hlt.
  - cbn [fold_left]. unfold sum_of. cbn [fold_right]. lia.
  - rewrite sum_of_cons in *. pose proof (sum_of_nonneg _ Hl). cbn [fold_left].
    rewrite (f64_small (snd kv)) by lia. rewrite f64_small by lia.
    rewrite IH by lia. lia.
Qed.

Definition quota (join : bool) (avg : Z) (kv : str * Z) : str * Z :=
  (fst kv, if join then (snd kv - avg)%Z else (avg - snd kv)%Z).

Lemma quota_sum_leave : forall avg peers,
  (Z.of_nat (length peers) * avg - sum_of peers
   <= sum_of (filter (fun kv => (0 <? snd kv)%Z) (map (quota false avg) peers)))%Z.
Proof.
  intros avg peers. induction peers as [|kv l IH]; [cbn; lia|].
  rewrite sum_of_cons. cbn [map filter]. cbn [length]. rewrite Nat2Z.inj_succ.
  unfold quota at 1. cbn [snd]. destruct (0 <? avg - snd kv)%Z eqn:E.
  - rewrite sum_of_cons. unfold quota at 1. cbn [snd]. lia.
  - apply Z.ltb_ge in E. lia.
Qed.

Lemma leave_plan : forall self peers,
  peers <> [] -> Forall (fun kv => (0 <= snd kv)%Z) peers -> (0 < self)%Z -> (self + sum_of peers < 2 ^ 53)%Z ->
  exists plan, deviation_values self peers false = Some plan /\ (self <= sum_of plan)%Z
    /\ (forall k q, In (k, q) plan -> (0 < q)%Z /\ exists v, In (k, v) peers).
Proof.
  intros self peers Hne Hp Hs Hlt.
  pose proof (sum_of_nonneg _ Hp) as Hnn.
  unfold deviation_values. cbv zeta.
  assert (Hlen : (0 < Z.of_nat (length peers))%Z) by (destruct peers; [easy|cbn [length]; lia]).
  destruct (Z.of_nat (length peers) =? 0)%Z eqn:E; [apply Z.eqb_eq in E; lia|].
  rewrite (total64_exact peers self) by (assumption || lia).
  destruct (self + sum_of peers =? 0)%Z eqn:E2; [apply Z.eqb_eq in E2; lia|].
  destruct (ceil_div64_exact (self + sum_of peers) (Z.of_nat (length peers))) as [_ Hc]; [lia|lia|].
  set (avg := ceil_div64 _ _) in *.
  pose proof (quota_sum_leave avg peers) as Hq. unfold quota in Hq. cbv beta iota in Hq.
  set (res := filter _ _) in *.
  destruct res as [|x r] eqn:Er.
  - unfold sum_of in Hq at 2. cbn [fold_right] in Hq. lia.
  - exists (x :: r). split; [reflexivity|]. split; [lia|].
    intros k q Hin. rewrite <- Er in Hin. unfold res in Hin.
    apply filter_In in Hin as [Hin Hpos]. apply in_map_iff in Hin as ([k' v] & Heq & Hin).
    cbn [fst snd] in *. injection Heq as <- <-. apply Z.ltb_lt in Hpos.
    split; [exact Hpos|]. exists v. exact Hin.
Qed.

Lemma join_plan : forall self peers plan,
  Forall (fun kv => (0 <= snd kv)%Z) peers -> (0 <= self)%Z -> (self + sum_of peers < 2 ^ 53)%Z ->
  deviation_values self peers true = Some plan ->
  forall k q, In (k, q) plan ->
  exists v, In (k, v) peers /\ (0 < q)%Z /\
    (Z.of_nat (S (length peers)) * q <= Z.of_nat (S (length peers)) * v - (self + sum_of peers))%Z.
Proof.
  intros self peers plan Hp Hs Hlt Hd k q Hin.
  pose proof (sum_of_nonneg _ Hp) as Hnn.
  unfold deviation_values in Hd. cbv zeta in Hd.
  destruct (Z.of_nat (S (length peers)) =? 0)%Z eqn:E; [discriminate|].
  rewrite (total64_exact peers self) in Hd by (assumption || lia).
  destruct (self + sum_of peers =? 0)%Z eqn:E2; [discriminate|].
  destruct (ceil_div64_exact (self + sum_of peers) (Z.of_nat (S (length peers)))) as [_ Hc]; [lia|lia|].
  set (avg := ceil_div64 _ _) in *.
  set (res := filter _ _) in *.
  assert (Hres : plan = res) by (destruct res; [discriminate|injection Hd as <-; reflexivity]).
  subst plan. unfold res in Hin.
  apply filter_In in Hin as [Hin Hpos]. apply in_map_iff in Hin as ([k' v] & Heq & Hin).
  cbn [fst snd] in *. injection Heq as <- <-. apply Z.ltb_lt in Hpos.
  exists v. split; [exact Hin|]. split; [exact Hpos|]. nia.
Qed.

(** ** Distribution *)

Lemma distribute_all : forall files ts cur left,
  Forall (fun f => (0 < snd f)%Z) files -> Forall (fun t => (0 < snd t)%Z) ts -> (0 < left)%Z ->
  (sum_of files <= left + sum_of ts)%Z ->
  map (fun x => (fst (fst x), snd x)) (distribute ts cur left files) = files.
Proof.
  induction files as [|[f size] r IH]; intros ts cur left Hf Ht Hl Hs; [reflexivity|].
  inversion_clear Hf as [|? ? Hsz Hr]. cbn [snd] in Hsz. rewrite sum_of_cons in Hs. cbn [snd] in Hs.
  assert (Hrn : (0 <= sum_of r)%Z).
  { apply sum_of_nonneg. eapply Forall_impl; [|exact Hr]. intros a Ha. cbn in Ha. lia. }
  cbn [distribute map fst snd]. f_equal.
  destruct (left - size <=? 0)%Z eqn:E.
  - apply Z.leb_le in E. destruct ts as [|[c q] ts].
    + destruct r as [|[f' s'] r']; [reflexivity|]. exfalso.
      inversion_clear Hr as [|? ? Hs' Hr']. cbn [snd] in Hs'. rewrite sum_of_cons in *. cbn [snd] in *.
      change (sum_of []) with 0%Z in Hs.
      assert (0 <= sum_of r')%Z; [|lia].
      apply sum_of_nonneg. eapply Forall_impl; [|exact Hr']. intros a Ha. cbn in Ha. lia.
    + inversion_clear Ht as [|? ? Hq Hts]. cbn [snd] in Hq. rewrite sum_of_cons in Hs. cbn [snd] in Hs.
      apply IH; [assumption|assumption|assumption|lia].
  - apply Z.leb_gt in E. apply IH; [assumption|assumption|lia|lia].
Qed.

Lemma plan_covers : forall targets files,
  targets <> [] ->
  Forall (fun f => (0 < snd f)%Z) files -> Forall (fun t => (0 < snd t)%Z) targets ->
  (sum_of files <= sum_of targets)%Z ->
  map (fun x => (fst (fst x), snd x)) (sending_plan targets files) = files.
Proof.
  intros [|[c q] ts] files Hne Hf Ht Hs; [easy|].
  inversion_clear Ht as [|? ? Hq Hts]. cbn [snd] in Hq. rewrite sum_of_cons in Hs. cbn [snd] in Hs.
  apply distribute_all; assumption.
Qed.

Lemma plan_targets : forall files ts cur left x,
  In x (distribute ts cur left files) -> snd (fst x) = cur \/ In (snd (fst x)) (map fst ts).
Proof.
  induction files as [|[f size] r IH]; intros ts cur left x Hin; [destruct Hin|].
  cbn [distribute] in Hin. destruct Hin as [<-|Hin]; [left; reflexivity|].
  destruct (left - size <=? 0)%Z.
  - destruct ts as [|[c q] ts]; [destruct Hin|].
    destruct (IH _ _ _ _ Hin) as [->|H]; right; [left; reflexivity|right; exact H].
  - exact (IH _ _ _ _ Hin).
Qed.

(** One target: all but the last file stay below the quota. *)
Lemma single_overshoot : forall files c left,
  (0 < left)%Z -> distribute [] c left files <> [] ->
  (fold_right (fun x a => (snd x + a)%Z) 0%Z (removelast (distribute [] c left files)) < left)%Z.
Proof.
  induction files as [|[f size] r IH]; intros c left Hl Hne; [contradiction Hne; reflexivity|].
  cbn [distribute]. destruct (left - size <=? 0)%Z eqn:E.
  - cbn. lia.
  - apply Z.leb_gt in E.
    destruct (distribute [] c (left - size) r) as [|x l] eqn:Ed.
    + cbn. lia.
    + assert (H : distribute [] c (left - size) r <> []) by (rewrite Ed; discriminate).
      specialize (IH c (left - size)%Z ltac:(lia) H). rewrite Ed in IH.
      change (removelast ((f, c, size) :: x :: l)) with ((f, c, size) :: removelast (x :: l)).
      cbn [fold_right snd]. lia.
Qed.

(** ** Reading the file *)

Lemma send_loop_empty : forall {B} fuel (file : list B) out, send_loop fuel 0 file out = None.
Proof. intros B fuel. induction fuel as [|f IH]; intros file out; [reflexivity|]. cbn [send_loop]. apply IH. Qed.

Lemma send_loop_done : forall {B} buf fuel (file : list B) out,
  0 < buf -> length file < fuel ->
  exists res, send_loop fuel buf file out = Some res /\ List.concat res = List.concat out ++ file.
Proof.
  intros B buf fuel. destruct buf as [|b]; [intros; lia|].
  induction fuel as [|f IH]; intros file out Hb Hl; [lia|].
  destruct file as [|x l].
  - exists out. split; [reflexivity|]. rewrite app_nil_r. reflexivity.
  - cbn [send_loop].
    destruct (IH (skipn (S b) (x :: l)) (out ++ [firstn (S b) (x :: l)]) Hb) as (res & Hr & Hc).
    { rewrite skipn_length. cbn [length] in *. lia. }
    exists res. split; [exact Hr|]. rewrite Hc. rewrite concat_app. cbn [List.concat].
    rewrite app_nil_r, <- app_assoc. rewrite firstn_skipn. reflexivity.
Qed.

(** ** Transfers *)
Section T.
  Context {B : Type}.
  Notation world := (world B).
  Notation transfer := (transfer B).

  Lemma nth_set_tr : forall (l : list transfer) i t j,
    i < length l -> nth_error (set_tr l i t) j = if j =? i then Some t else nth_error l j.
  Proof.
    intros l i t j Hi. unfold set_tr.
    assert (Hlen : length (firstn i l) = i) by (rewrite firstn_length; lia).
    destruct (Nat.eqb_spec j i) as [->|Hne].
    - rewrite nth_error_app2 by lia. rewrite Hlen, Nat.sub_diag. reflexivity.
    - destruct (Nat.lt_ge_cases j i) as [Hlt|Hge].
      + rewrite nth_error_app1 by lia. rewrite <- (firstn_skipn i l) at 2.
        rewrite nth_error_app1 by lia. reflexivity.
      + rewrite nth_error_app2 by lia. rewrite Hlen.
        destruct (j - i) as [|d] eqn:E; [lia|]. cbn [nth_error].
        rewrite <- (firstn_skipn (S i) l) at 2.
        assert (Hlen2 : length (firstn (S i) l) = S i) by (rewrite firstn_length; lia).
        rewrite nth_error_app2 by lia. rewrite Hlen2. f_equal. lia.
  Qed.

  Lemma nth_lt : forall (l : list transfer) i t, nth_error l i = Some t -> i < length l.
  Proof. intros l i t H. apply nth_error_Some. rewrite H. discriminate. Qed.

  Definition stage_ok (w : world) (t : transfer) (c : list B) : Prop :=
    match t_stage t with
    | Opening => t_left t = c
    | Stated true => t_left t = c /\ exists f, r_file w (t_name t) = Some f /\ length f <> length c
    | Stated false => t_left t = c /\ r_dir w (t_name t) = None
    | Writing ino => ino < r_next w /\ r_data w ino ++ t_left t = c
                     /\ forall m, r_dir w m = Some ino -> m = t_name t
    | Sent => True
    | Acked => r_file w (t_name t) = Some c
    | Over => True
    end.

  Record inv (s0 : str -> option (list B)) (w : world) : Prop := {
    i_src : forall n c, s_dir w n = Some c -> s0 n = Some c;
    i_here : forall n c, s0 n = Some c -> present w n c;
    i_ino : forall n ino, r_dir w n = Some ino -> ino < r_next w;
    i_own : forall n m ino, r_dir w n = Some ino -> r_dir w m = Some ino -> n = m;
    i_pre : forall n c f, s0 n = Some c -> r_file w n = Some f -> exists r, c = f ++ r;
    i_tr : forall i t, nth_error (trs w) i = Some t ->
           exists c, s0 (t_name t) = Some c /\ t_size t = length c /\ stage_ok w t c;
    i_uni : forall i j ti tj a b, nth_error (trs w) i = Some ti -> nth_error (trs w) j = Some tj -> i <> j ->
            t_stage ti = Writing a -> t_stage tj = Writing b -> a <> b }.

  Lemma inv_ready : forall w, ready w -> inv (s_dir w) w.
  Proof.
    intros w [Ht Hi Ho Hp]. split.
    - auto.
    - intros n c H. left. exact H.
    - exact Hi.
    - exact Ho.
    - exact Hp.
    - rewrite Ht. intros [|i] t H; discriminate.
    - rewrite Ht. intros [|i] j ti tj a b H; discriminate.
  Qed.

  (** A transfer changes to a stage other than writing, files unchanged. *)
  Lemma inv_stage : forall s0 w i t t',
    inv s0 w -> nth_error (trs w) i = Some t -> t_name t' = t_name t -> t_size t' = t_size t ->
    (forall ino, t_stage t' <> Writing ino) ->
    (forall c, s0 (t_name t) = Some c -> t_size t = length c -> stage_ok w t c -> stage_ok w t' c) ->
    inv s0 (with_tr w i t').
  Proof.
    intros s0 w i t t' [H1 H2 H3 H4 H5 H6 H7] Hi Hn Hsz Hnw Hok.
    pose proof (nth_lt _ _ _ Hi) as Hlt.
    split; cbn [with_tr s_dir r_dir r_data r_next trs]; try assumption.
    - intros j tj Hj. rewrite nth_set_tr in Hj by exact Hlt.
      destruct (Nat.eqb_spec j i) as [->|Hne].
      + injection Hj as <-. destruct (H6 i t Hi) as (c & Ha & Hb & Hc).
        exists c. rewrite Hn, Hsz. split; [exact Ha|]. split; [exact Hb|].
        exact (Hok c Ha Hb Hc).
      + exact (H6 j tj Hj).
    - intros j k tj tk a b Hj Hk Hjk Hsj Hsk.
      rewrite nth_set_tr in Hj, Hk by exact Hlt.
      destruct (Nat.eqb_spec j i) as [->|Hne].
      + injection Hj as <-. exfalso. exact (Hnw a Hsj).
      + destruct (Nat.eqb_spec k i) as [->|Hne2].
        * injection Hk as <-. exfalso. exact (Hnw b Hsk).
        * exact (H7 j k tj tk a b Hj Hk Hjk Hsj Hsk).
  Qed.

  Lemma r_file_some : forall (w : world) n f, r_file w n = Some f -> exists ino, r_dir w n = Some ino /\ r_data w ino = f.
  Proof.
    intros w n f H. unfold r_file in H. destruct (r_dir w n) as [ino|]; [|discriminate].
    injection H as <-. exists ino. split; reflexivity.
  Qed.

  Lemma inv_create : forall s0 w i t c ch rest,
    inv s0 w -> nth_error (trs w) i = Some t -> s0 (t_name t) = Some c -> t_size t = length c ->
    ch ++ rest = c ->
    (forall f, r_file w (t_name t) = Some f -> length f <> length c) ->
    (forall j tj b, nth_error (trs w) j = Some tj -> j <> i -> t_name tj = t_name t -> t_stage tj <> Stated b) ->
    inv s0 (with_tr (append_chunk (fst (create_file w (t_name t))) (r_next w) ch) i (at_stage t rest (Writing (r_next w)))).
  Proof.
    intros s0 w i t c ch rest [H1 H2 H3 H4 H5 H6 H7] Hi Hc Hsz Hch Hlen Hst.
    pose proof (nth_lt _ _ _ Hi) as Hlt.
    set (w' := with_tr _ _ _).
    assert (Hdir : forall m, r_dir w' m = if str_eq_dec m (t_name t) then Some (r_next w) else r_dir w m) by reflexivity.
    assert (Hold : forall ino, ino < r_next w -> r_data w' ino = r_data w ino).
    { intros ino Hino. unfold w'. cbn [with_tr append_chunk create_file fst r_data].
      unfold upd_data. destruct (Nat.eqb_spec ino (r_next w)); [lia|reflexivity]. }
    assert (Hnew : r_data w' (r_next w) = ch).
    { unfold w'. cbn [with_tr append_chunk create_file fst r_data].
      unfold upd_data. rewrite Nat.eqb_refl. reflexivity. }
    assert (Hother : forall m, m <> t_name t -> r_file w' m = r_file w m).
    { intros m Hm. unfold r_file. rewrite Hdir. destruct (str_eq_dec m (t_name t)); [contradiction|].
      destruct (r_dir w m) as [ino|] eqn:E; [|reflexivity]. rewrite Hold by exact (H3 _ _ E). reflexivity. }
    assert (Hself : r_file w' (t_name t) = Some ch).
    { unfold r_file. rewrite Hdir. destruct (str_eq_dec (t_name t) (t_name t)); [|contradiction].
      rewrite Hnew. reflexivity. }
    assert (Hnext : r_next w' = S (r_next w)) by reflexivity.
    assert (Htrs : trs w' = set_tr (trs w) i (at_stage t rest (Writing (r_next w)))) by reflexivity.
    assert (Hsd : s_dir w' = s_dir w) by reflexivity.
    clearbody w'. split.
    - rewrite Hsd. exact H1.
    - intros n cn Hn. unfold present. rewrite Hsd. destruct (str_eq_dec n (t_name t)) as [->|Hne].
      + left. destruct (H2 _ _ Hn) as [H|H]; [exact H|].
        exfalso. apply (Hlen _ H). congruence.
      + rewrite Hother by exact Hne. exact (H2 _ _ Hn).
    - intros n ino H. rewrite Hnext. rewrite Hdir in H. destruct (str_eq_dec n (t_name t)).
      + injection H as <-. lia.
      + specialize (H3 _ _ H). lia.
    - intros n m ino Hn Hm. rewrite Hdir in Hn, Hm.
      destruct (str_eq_dec n (t_name t)), (str_eq_dec m (t_name t)).
      + congruence.
      + injection Hn as <-. specialize (H3 _ _ Hm). lia.
      + injection Hm as <-. specialize (H3 _ _ Hn). lia.
      + exact (H4 _ _ _ Hn Hm).
    - intros n cn f Hn Hf. destruct (str_eq_dec n (t_name t)) as [->|Hne].
      + rewrite Hself in Hf. injection Hf as <-. exists rest. congruence.
      + rewrite Hother in Hf by exact Hne. exact (H5 _ _ _ Hn Hf).
    - intros j tj Hj. rewrite Htrs, nth_set_tr in Hj by exact Hlt.
      destruct (Nat.eqb_spec j i) as [->|Hne].
      + injection Hj as <-. exists c. cbn [at_stage t_name t_size].
        split; [exact Hc|]. split; [exact Hsz|]. unfold stage_ok. cbn [at_stage t_stage t_left t_name].
        split; [lia|]. split; [rewrite Hnew; exact Hch|].
        intros m Hm. rewrite Hdir in Hm. destruct (str_eq_dec m (t_name t)); [assumption|].
        specialize (H3 _ _ Hm). lia.
      + destruct (H6 j tj Hj) as (cj & Ha & Hb & Hok). exists cj. split; [exact Ha|]. split; [exact Hb|].
        unfold stage_ok in *. destruct (t_stage tj) as [|b|ino| | |] eqn:Est; try exact Hok.
        * assert (Hnm : t_name tj <> t_name t).
          { intros Heq. exact (Hst j tj b Hj Hne Heq Est). }
          destruct b.
          -- rewrite Hother by exact Hnm. exact Hok.
          -- rewrite Hdir. destruct (str_eq_dec (t_name tj) (t_name t)); [contradiction|exact Hok].
        * destruct Hok as (Hi1 & Hi2 & Hi3). split; [lia|]. split; [rewrite Hold by exact Hi1; exact Hi2|].
          intros m Hm. rewrite Hdir in Hm. destruct (str_eq_dec m (t_name t)).
          -- injection Hm as <-. lia.
          -- exact (Hi3 m Hm).
        * destruct (str_eq_dec (t_name tj) (t_name t)) as [Heq|Hnm].
          -- exfalso. rewrite Heq in Hok, Ha. apply (Hlen _ Hok). congruence.
          -- rewrite Hother by exact Hnm. exact Hok.
    - intros j k tj tk a b Hj Hk Hjk Hsj Hsk.
      rewrite Htrs, nth_set_tr in Hj, Hk by exact Hlt.
      assert (Hw : forall x tx ix, nth_error (trs w) x = Some tx -> t_stage tx = Writing ix -> ix < r_next w).
      { intros x tx ix Hx Hsx. destruct (H6 x tx Hx) as (cx & _ & _ & Hok). unfold stage_ok in Hok.
        rewrite Hsx in Hok. exact (proj1 Hok). }
      destruct (Nat.eqb_spec j i) as [->|Hne].
      + injection Hj as <-. cbn [at_stage t_stage] in Hsj. injection Hsj as <-.
        destruct (Nat.eqb_spec k i) as [->|Hne2]; [contradiction|].
        specialize (Hw k tk b Hk Hsk). lia.
      + destruct (Nat.eqb_spec k i) as [->|Hne2].
        * injection Hk as <-. cbn [at_stage t_stage] in Hsk. injection Hsk as <-.
          specialize (Hw j tj a Hj Hsj). lia.
        * exact (H7 j k tj tk a b Hj Hk Hjk Hsj Hsk).
  Qed.

  Lemma inv_append : forall s0 w i t c ch rest ino,
    inv s0 w -> nth_error (trs w) i = Some t -> s0 (t_name t) = Some c -> t_size t = length c ->
    t_stage t = Writing ino -> r_data w ino ++ ch ++ rest = c ->
    (forall j tj b, nth_error (trs w) j = Some tj -> j <> i -> t_name tj = t_name t -> t_stage tj <> Stated b) ->
    inv s0 (with_tr (append_chunk w ino ch) i (at_stage t rest (Writing ino))).
  Proof.
    intros s0 w i t c ch rest ino [H1 H2 H3 H4 H5 H6 H7] Hi Hc Hsz Hstage Hch Hst.
    pose proof (nth_lt _ _ _ Hi) as Hlt.
    destruct (H6 i t Hi) as (c' & Hc' & _ & Hok). unfold stage_ok in Hok. rewrite Hstage in Hok.
    destruct Hok as (Hino & _ & Hown).
    set (w' := with_tr _ _ _).
    assert (Hdir : forall m, r_dir w' m = r_dir w m) by reflexivity.
    assert (Hdata : forall x, r_data w' x = if x =? ino then r_data w ino ++ ch else r_data w x) by reflexivity.
    assert (Hnext : r_next w' = r_next w) by reflexivity.
    assert (Htrs : trs w' = set_tr (trs w) i (at_stage t rest (Writing ino))) by reflexivity.
    assert (Hsd : s_dir w' = s_dir w) by reflexivity.
    clearbody w'.
    assert (Hother : forall m, m <> t_name t -> r_file w' m = r_file w m).
    { intros m Hm. unfold r_file. rewrite Hdir. destruct (r_dir w m) as [x|] eqn:E; [|reflexivity].
      rewrite Hdata. destruct (Nat.eqb_spec x ino) as [->|]; [|reflexivity].
      exfalso. apply Hm. exact (Hown m E). }
    assert (Hfull : r_file w (t_name t) = Some c -> r_file w' (t_name t) = Some c).
    { intros H. destruct (r_file_some _ _ _ H) as (x & Hx & Hd). unfold r_file. rewrite Hdir, Hx, Hdata.
      destruct (Nat.eqb_spec x ino) as [->|]; [|congruence].
      assert (Hnil : ch ++ rest = []).
      { rewrite Hd in Hch. apply (f_equal (@List.length B)) in Hch. rewrite app_length in Hch.
        destruct (ch ++ rest); [reflexivity|cbn [length] in Hch; lia]. }
      apply app_eq_nil in Hnil as [-> ->]. rewrite app_nil_r. congruence. }
    split.
    - rewrite Hsd. exact H1.
    - intros n cn Hn. unfold present. rewrite Hsd. destruct (str_eq_dec n (t_name t)) as [->|Hne].
      + destruct (H2 _ _ Hn) as [H|H]; [left; exact H|right].
        assert (cn = c) as -> by congruence. exact (Hfull H).
      + rewrite Hother by exact Hne. exact (H2 _ _ Hn).
    - intros n x H. rewrite Hnext. rewrite Hdir in H. exact (H3 _ _ H).
    - intros n m x Hn Hm. rewrite Hdir in Hn, Hm. exact (H4 _ _ _ Hn Hm).
    - intros n cn f Hn Hf. destruct (str_eq_dec n (t_name t)) as [->|Hne].
      + assert (cn = c) as -> by congruence.
        destruct (r_file_some _ _ _ Hf) as (x & Hx & Hd). rewrite Hdir in Hx. rewrite Hdata in Hd.
        destruct (Nat.eqb_spec x ino) as [->|].
        * exists rest. rewrite <- Hd, <- app_assoc. symmetry. exact Hch.
        * apply (H5 _ _ _ Hn). unfold r_file. rewrite Hx, Hd. reflexivity.
      + rewrite Hother in Hf by exact Hne. exact (H5 _ _ _ Hn Hf).
    - intros j tj Hj. rewrite Htrs, nth_set_tr in Hj by exact Hlt.
      destruct (Nat.eqb_spec j i) as [->|Hne].
      + injection Hj as <-. exists c. cbn [at_stage t_name t_size].
        split; [exact Hc|]. split; [exact Hsz|]. unfold stage_ok. cbn [at_stage t_stage t_left t_name].
        split; [lia|]. split; [rewrite Hdata, Nat.eqb_refl, <- app_assoc; exact Hch|].
        intros m Hm. rewrite Hdir in Hm. exact (Hown m Hm).
      + destruct (H6 j tj Hj) as (cj & Ha & Hb & Hok). exists cj. split; [exact Ha|]. split; [exact Hb|].
        unfold stage_ok in *. destruct (t_stage tj) as [|b|x| | |] eqn:Est; try exact Hok.
        * assert (Hnm : t_name tj <> t_name t).
          { intros Heq. exact (Hst j tj b Hj Hne Heq Est). }
          destruct b.
          -- rewrite Hother by exact Hnm. exact Hok.
          -- rewrite Hdir. exact Hok.
        * destruct Hok as (Hi1 & Hi2 & Hi3). split; [lia|].
          assert (Hx : x <> ino).
          { intros ->. exact (H7 j i tj t ino ino Hj Hi Hne Est Hstage eq_refl). }
          split; [rewrite Hdata; destruct (Nat.eqb_spec x ino); [contradiction|exact Hi2]|].
          intros m Hm. rewrite Hdir in Hm. exact (Hi3 m Hm).
        * destruct (str_eq_dec (t_name tj) (t_name t)) as [Heq|Hnm].
          -- rewrite Heq in *. assert (cj = c) as -> by congruence. exact (Hfull Hok).
          -- rewrite Hother by exact Hnm. exact Hok.
    - intros j k tj tk a b Hj Hk Hjk Hsj Hsk.
      rewrite Htrs, nth_set_tr in Hj, Hk by exact Hlt.
      destruct (Nat.eqb_spec j i) as [->|Hne].
      + injection Hj as <-. cbn [at_stage t_stage] in Hsj. injection Hsj as <-.
        destruct (Nat.eqb_spec k i) as [->|Hne2]; [contradiction|].
        exact (H7 i k t tk ino b Hi Hk Hjk Hstage Hsk).
      + destruct (Nat.eqb_spec k i) as [->|Hne2].
        * injection Hk as <-. cbn [at_stage t_stage] in Hsk. injection Hsk as <-.
          exact (H7 j i tj t a ino Hj Hi Hjk Hsj Hstage).
        * exact (H7 j k tj tk a b Hj Hk Hjk Hsj Hsk).
  Qed.

  Lemma calm_others : forall (w : world) i t, calm w -> nth_error (trs w) i = Some t -> live t ->
    forall j tj b, nth_error (trs w) j = Some tj -> j <> i -> t_name tj = t_name t -> t_stage tj <> Stated b.
  Proof.
    intros w i t Hcalm Hi Hlive j tj b Hj Hji Hn Hs.
    exact (Hcalm j i tj t b Hj Hi Hji Hn Hs Hlive).
  Qed.

  Lemma inv_step : forall s0 w e, inv s0 w -> calm w -> no_upload e -> inv s0 (step w e).
  Proof.
    intros s0 w e Hinv Hcalm Hup. destruct e as [n|i|i k|i|i ok|i|n c| |]; cbn [step].
    - (* start *)
      destruct (s_dir w n) as [f|] eqn:Es; [|exact Hinv].
      destruct Hinv as [H1 H2 H3 H4 H5 H6 H7].
      split; cbn [s_dir r_dir r_data r_next trs]; try assumption.
      + intros j tj Hj. destruct (Nat.lt_ge_cases j (length (trs w))) as [Hlt|Hge].
        * rewrite nth_error_app1 in Hj by exact Hlt. exact (H6 j tj Hj).
        * rewrite nth_error_app2 in Hj by exact Hge. destruct (j - length (trs w)) as [|[|d]]; try discriminate.
          injection Hj as <-. exists f. cbn [t_name t_size]. split; [exact (H1 _ _ Es)|]. split; reflexivity.
      + assert (Hw : forall j tj a, nth_error (trs w ++ [{| t_name := n; t_size := length f; t_left := f; t_stage := Opening |}]) j = Some tj ->
                     t_stage tj = Writing a -> nth_error (trs w) j = Some tj).
        { intros j tj a Hj Ha. destruct (Nat.lt_ge_cases j (length (trs w))) as [Hlt|Hge].
          - rewrite nth_error_app1 in Hj by exact Hlt. exact Hj.
          - rewrite nth_error_app2 in Hj by exact Hge. destruct (j - length (trs w)) as [|[|d]]; try discriminate.
            injection Hj as <-. discriminate. }
        intros j k tj tk a b Hj Hk Hjk Hsj Hsk.
        exact (H7 j k tj tk a b (Hw _ _ _ Hj Hsj) (Hw _ _ _ Hk Hsk) Hjk Hsj Hsk).
    - (* look *)
      destruct (nth_error (trs w) i) as [t|] eqn:Hi; [|exact Hinv].
      destruct (t_stage t) as [|b|ino| | |] eqn:Est; try exact Hinv.
      destruct (t_left t) as [|x l] eqn:El; [exact Hinv|].
      destruct (look_file w (t_name t) (t_size t)) as [rep|] eqn:Elk.
      + apply (inv_stage s0 w i t); try reflexivity; try assumption.
        { intros ino. discriminate. }
        intros c Hc Hsz Hok. unfold stage_ok in *. rewrite Est in Hok. cbn [at_stage t_stage t_left t_name].
        unfold look_file in Elk. destruct (r_dir w (t_name t)) as [ino|] eqn:Ed.
        * destruct (Nat.eqb_spec (length (r_data w ino)) (t_size t)); [discriminate|].
          injection Elk as <-. split; [congruence|]. exists (r_data w ino).
          split; [unfold r_file; rewrite Ed; reflexivity|congruence].
        * injection Elk as <-. split; congruence.
      + apply (inv_stage s0 w i t); try reflexivity; try assumption. intros ino. discriminate.
    - (* send *)
      destruct (nth_error (trs w) i) as [t|] eqn:Hi; [|exact Hinv].
      cbv zeta. set (kk := if t_size t =? 0 then 0 else S k).
      set (eof := match kk with O => false | S _ => match t_left t with [] => true | _ :: _ => false end end).
      destruct (i_tr _ _ Hinv i t Hi) as (c & Hc & Hsz & Hok). unfold stage_ok in Hok.
      destruct (t_stage t) as [|b|ino| | |] eqn:Est; try exact Hinv.
      + assert (Hlive : live t) by (unfold live; rewrite Est; discriminate).
        destruct eof.
        { apply (inv_stage s0 w i t); try reflexivity; try assumption. intros ino. discriminate. }
        destruct (look_file w (t_name t) (t_size t)) as [rep|] eqn:Elk.
        2: { apply (inv_stage s0 w i t); try reflexivity; try assumption. intros ino. discriminate. }
        unfold first_chunk, open_file. unfold look_file in Elk.
        destruct (r_dir w (t_name t)) as [ino|] eqn:Ed.
        * destruct (Nat.eqb_spec (length (r_data w ino)) (t_size t)) as [|Hl]; [discriminate|].
          injection Elk as <-. cbn [create_file].
          apply (inv_create s0 w i t c); try assumption.
          -- rewrite firstn_skipn. exact Hok.
          -- intros f Hf. unfold r_file in Hf. rewrite Ed in Hf. injection Hf as <-. congruence.
          -- exact (calm_others w i t Hcalm Hi Hlive).
        * injection Elk as <-. cbn [create_file].
          apply (inv_create s0 w i t c); try assumption.
          -- rewrite firstn_skipn. exact Hok.
          -- intros f Hf. unfold r_file in Hf. rewrite Ed in Hf. discriminate.
          -- exact (calm_others w i t Hcalm Hi Hlive).
      + assert (Hlive : live t) by (unfold live; rewrite Est; discriminate).
        unfold first_chunk, open_file. destruct b.
        * destruct Hok as (Hl & f & Hf & Hlen). destruct (r_file_some _ _ _ Hf) as (ino & Ed & Hd).
          rewrite Ed. cbn [create_file]. apply (inv_create s0 w i t c); try assumption.
          -- rewrite firstn_skipn. exact Hl.
          -- intros f' Hf'. congruence.
          -- exact (calm_others w i t Hcalm Hi Hlive).
        * destruct Hok as (Hl & Ed). rewrite Ed. cbn [create_file]. apply (inv_create s0 w i t c); try assumption.
          -- rewrite firstn_skipn. exact Hl.
          -- intros f' Hf'. unfold r_file in Hf'. rewrite Ed in Hf'. discriminate.
          -- exact (calm_others w i t Hcalm Hi Hlive).
      + assert (Hlive : live t) by (unfold live; rewrite Est; discriminate).
        destruct eof.
        { apply (inv_stage s0 w i t); try reflexivity; try assumption. intros x. discriminate. }
        destruct Hok as (Hi1 & Hi2 & Hi3).
        apply (inv_append s0 w i t c); try assumption.
        * rewrite firstn_skipn. exact Hi2.
        * exact (calm_others w i t Hcalm Hi Hlive).
    - (* break *)
      destruct (nth_error (trs w) i) as [t|] eqn:Hi; [|exact Hinv].
      apply (inv_stage s0 w i t); try reflexivity; try assumption.
      intros ino. discriminate.
    - (* finish *)
      destruct (nth_error (trs w) i) as [t|] eqn:Hi; [|exact Hinv].
      destruct (t_stage t) as [|b|ino| | |] eqn:Est; try exact Hinv.
      cbv zeta.
      apply (inv_stage s0 w i t); try reflexivity; try assumption.
      + intros ino. cbn [at_stage t_stage]. destruct (_ && ok); discriminate.
      + intros c Hc Hsz _. unfold stage_ok. cbn [at_stage t_stage t_name].
        destruct (r_dir w (t_name t)) as [ino|] eqn:Ed; [|exact I].
        destruct (Nat.eqb_spec (length (r_data w ino)) (t_size t)) as [Hl|]; [|exact I].
        destruct ok; [|exact I]. cbn [andb].
        assert (Hf : r_file w (t_name t) = Some (r_data w ino)) by (unfold r_file; rewrite Ed; reflexivity).
        destruct (i_pre _ _ Hinv _ _ _ Hc Hf) as (r & Hr).
        rewrite Hf. f_equal. rewrite Hr. destruct r as [|x r]; [rewrite app_nil_r; reflexivity|].
        exfalso. rewrite Hr, app_length in Hsz. cbn [length] in Hsz. lia.
    - (* delete *)
      destruct (nth_error (trs w) i) as [t|] eqn:Hi; [|exact Hinv].
      destruct (t_stage t) as [|b|ino| | |] eqn:Est; try exact Hinv.
      assert (Hw : inv s0 (with_tr w i (at_stage t [] Over))).
      { apply (inv_stage s0 w i t); try reflexivity; try assumption. intros ino. discriminate. }
      destruct (i_tr _ _ Hinv i t Hi) as (c & Hc & Hsz & Hok). unfold stage_ok in Hok. rewrite Est in Hok.
      destruct Hw as [H1 H2 H3 H4 H5 H6 H7].
      split; cbn [s_dir r_dir r_data r_next trs]; try assumption.
      + intros n cn. unfold upd_dir. destruct (str_eq_dec n (t_name t)); [discriminate|]. exact (H1 n cn).
      + intros n cn Hn. unfold present. cbn [s_dir]. unfold upd_dir.
        destruct (str_eq_dec n (t_name t)) as [->|Hne].
        * right. assert (cn = c) as -> by congruence. exact Hok.
        * exact (H2 n cn Hn).
    - (* upload *)
      destruct Hup.
    - (* sender crash *)
      destruct Hinv as [H1 H2 H3 H4 H5 H6 H7].
      split; cbn [s_dir r_dir r_data r_next trs]; try assumption.
      + intros [|j] tj Hj; discriminate.
      + intros [|j] k tj tk a b Hj; discriminate.
    - (* receiver crash *)
      destruct Hinv as [H1 H2 H3 H4 H5 H6 H7].
      split; cbn [s_dir r_dir r_data r_next trs]; try assumption.
      + intros j tj Hj. rewrite nth_error_map in Hj. destruct (nth_error (trs w) j) as [t|] eqn:Hi; [|discriminate].
        injection Hj as <-. destruct (H6 j t Hi) as (c & Hc & Hsz & Hok).
        exists c. destruct (t_stage t) as [|b|ino| | |] eqn:Est; cbn [at_stage t_name t_size];
          (split; [exact Hc|]); (split; [exact Hsz|]); unfold stage_ok in *; cbn [at_stage t_stage]; rewrite ?Est in *; try exact Hok; exact I.
      + intros j k tj tk a b Hj Hk Hjk Hsj Hsk. rewrite nth_error_map in Hj.
        destruct (nth_error (trs w) j) as [t|] eqn:Hi; [|discriminate].
        injection Hj as <-. destruct (t_stage t) as [|b'|ino| | |] eqn:Est; cbn in Hsj; congruence.
  Qed.

  Lemma inv_run : forall s0 es w, inv s0 w -> calm_run w es -> Forall no_upload es -> inv s0 (run w es).
  Proof.
    intros s0 es. induction es as [|e r IH]; intros w Hinv Hcalm Hup; [exact Hinv|].
    destruct Hcalm as [Hc Hr]. inversion_clear Hup as [|? ? He Hup'].
    cbn [run fold_left]. apply IH; [|exact Hr|exact Hup']. apply inv_step; assumption.
  Qed.

  Lemma no_loss : forall (w : world) (es : list (@event B)) n c, ready w -> calm_run w es -> Forall no_upload es ->
    s_dir w n = Some c -> present (run w es) n c.
  Proof.
    intros w es n c Hr Hc Hup Hn.
    exact (i_here _ _ (inv_run _ es w (inv_ready w Hr) Hc Hup) n c Hn).
  Qed.

  (** ** Runs that are calm *)
  Definition no_look (e : @event B) : Prop := match e with MLook _ => False | _ => True end.

  Definition none_stated (w : world) : Prop := forall i t b, nth_error (trs w) i = Some t -> t_stage t <> Stated b.

  Lemma none_stated_set : forall (w : world) i t, none_stated w -> i < length (trs w) ->
    (forall b, t_stage t <> Stated b) -> forall j tj b, nth_error (set_tr (trs w) i t) j = Some tj -> t_stage tj <> Stated b.
  Proof.
    intros w i t Hw Hi Ht j tj b Hj. rewrite nth_set_tr in Hj by exact Hi.
    destruct (j =? i); [injection Hj as <-; apply Ht|exact (Hw j tj b Hj)].
  Qed.

  Lemma none_stated_step : forall (w : world) e, none_stated w -> no_look e -> none_stated (step w e).
  Proof.
    intros w e Hw He. destruct e as [n|i|i k|i|i ok|i|n c| |]; cbn [step].
    - destruct (s_dir w n) as [f|]; [|exact Hw]. intros j tj b Hj. cbn [trs] in Hj.
      destruct (Nat.lt_ge_cases j (length (trs w))) as [Hlt|Hge].
      + rewrite nth_error_app1 in Hj by exact Hlt. exact (Hw j tj b Hj).
      + rewrite nth_error_app2 in Hj by exact Hge. destruct (j - length (trs w)) as [|[|d]]; try discriminate.
        injection Hj as <-. discriminate.
    - destruct He.
    - destruct (nth_error (trs w) i) as [t|] eqn:Hi; [|exact Hw]. pose proof (nth_lt _ _ _ Hi) as Hlt.
      cbv zeta. set (kk := if t_size t =? 0 then 0 else S k).
      set (eof := match kk with O => false | S _ => match t_left t with [] => true | _ :: _ => false end end).
      assert (Hgen : forall w' t', trs w' = trs w -> (forall b, t_stage t' <> Stated b) -> none_stated (with_tr w' i t')).
      { intros w' t' Htr Ht' j tj b Hj. cbn [with_tr trs] in Hj. rewrite Htr in Hj.
        exact (none_stated_set w i t' Hw Hlt Ht' j tj b Hj). }
      assert (Hfirst : forall rep ch rest, none_stated (first_chunk w i t rep ch rest)).
      { intros rep ch rest. unfold first_chunk, open_file.
        destruct rep, (r_dir w (t_name t)) as [ino|]; cbn [create_file]; apply Hgen; try reflexivity; intros b; discriminate. }
      destruct (t_stage t) as [|b|ino| | |] eqn:Est; try exact Hw.
      + destruct eof; [apply Hgen; [reflexivity|intros b; discriminate]|].
        destruct (look_file w (t_name t) (t_size t)); [apply Hfirst|apply Hgen; [reflexivity|intros b'; discriminate]].
      + apply Hfirst.
      + destruct eof; apply Hgen; try reflexivity; intros b; discriminate.
    - destruct (nth_error (trs w) i) as [t|] eqn:Hi; [|exact Hw]. intros j tj b Hj.
      refine (none_stated_set w i _ Hw (nth_lt _ _ _ Hi) _ j tj b Hj); intros b'; discriminate.
    - destruct (nth_error (trs w) i) as [t|] eqn:Hi; [|exact Hw].
      destruct (t_stage t) as [|b|ino| | |] eqn:Est; try exact Hw.
      cbv zeta. intros j tj b Hj. refine (none_stated_set w i _ Hw (nth_lt _ _ _ Hi) _ j tj b Hj).
      intros b'. cbn [at_stage t_stage]. destruct (_ && ok); discriminate.
    - destruct (nth_error (trs w) i) as [t|] eqn:Hi; [|exact Hw].
      destruct (t_stage t) as [|b|ino| | |] eqn:Est; try exact Hw.
      intros j tj b Hj. refine (none_stated_set w i _ Hw (nth_lt _ _ _ Hi) _ j tj b Hj); intros b'; discriminate.
    - destruct (s_dir w n) as [f|]; [|exact Hw]. intros j tj b Hj. cbn [trs] in Hj. rewrite nth_error_map in Hj.
      destruct (nth_error (trs w) j) as [t|] eqn:Hi; [|discriminate]. injection Hj as <-.
      pose proof (Hw j t b Hi) as Hb.
      destruct (str_eq_dec (t_name t) n); [|exact Hb].
      destruct (t_stage t) eqn:Est; cbn [at_stage t_stage]; try rewrite Est; exact Hb.
    - intros [|j] tj b Hj; discriminate.
    - intros j tj b Hj. cbn [trs] in Hj. rewrite nth_error_map in Hj.
      destruct (nth_error (trs w) j) as [t|] eqn:Hi; [|discriminate]. injection Hj as <-.
      pose proof (Hw j t b Hi) as Hb.
      destruct (t_stage t) eqn:Est; cbn [at_stage t_stage]; try rewrite Est; try discriminate; exact Hb.
  Qed.

  Lemma no_look_calm : forall es (w : world), none_stated w -> Forall no_look es -> calm_run w es.
  Proof.
    induction es as [|e r IH]; intros w Hw Hf.
    - split; [|exact I]. intros i j ti tj b Hi Hj Hij Hn Hs. exfalso. exact (Hw i ti b Hi Hs).
    - inversion_clear Hf as [|? ? He Hr]. split.
      + intros i j ti tj b Hi Hj Hij Hn Hs. exfalso. exact (Hw i ti b Hi Hs).
      + apply IH; [apply none_stated_step; assumption|exact Hr].
  Qed.

  Lemma no_loss_atomic_open : forall (w : world) (es : list (@event B)) n c, ready w -> Forall no_look es -> Forall no_upload es ->
    s_dir w n = Some c -> present (run w es) n c.
  Proof.
    intros w es n c Hr Hl Hu Hn. apply no_loss; try assumption.
    apply no_look_calm; [|exact Hl]. intros i t b Hi. rewrite (ready_trs _ Hr) in Hi. destruct i; discriminate.
  Qed.
End T.
