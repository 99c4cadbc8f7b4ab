From Verif Require Import ListX Codec_Model.
From Coq Require Import ZifyBool ZifyNat ZifyN.
Ltac Zify.zify_post_hook ::= Z.div_mod_to_equations.
Local Open Scope N_scope.

Lemma land_shiftl_0 : forall x b s, x < 2 ^ s -> N.land x (N.shiftl b s) = 0.
Proof.
  intros x b s Hx. apply N.bits_inj_0. intros i. rewrite N.land_spec.
  destruct (N.ltb_spec i s) as [H|H].
  - rewrite N.shiftl_spec_low by exact H. apply andb_false_r.
  - destruct (N.eq_dec x 0) as [->|Hx0]; [rewrite N.bits_0; reflexivity|].
    rewrite (N.bits_above_log2 x i); [reflexivity|].
    apply N.log2_lt_pow2; [lia|]. eapply N.lt_le_trans; [exact Hx|].
    apply N.pow_le_mono_r; [discriminate|exact H].
Qed.

Lemma lor_shiftl_add : forall x b s, x < 2 ^ s -> N.lor x (N.shiftl b s) = x + b * 2 ^ s.
Proof.
  intros x b s Hx. rewrite <- N.shiftl_mul_pow2.
  rewrite N.add_nocarry_lxor by (apply land_shiftl_0; exact Hx).
  rewrite N.lxor_lor by (apply land_shiftl_0; exact Hx). reflexivity.
Qed.

Lemma low_byte : forall x, N.lor (N.land x 255 mod 256) 128 = 128 + x mod 128.
Proof.
  intros x. change 255 with (N.ones 8). rewrite N.land_ones, N.mod_mod by discriminate.
  change (2 ^ 8) with 256. set (y := x mod 256). assert (Hy : y < 256) by (unfold y; lia).
  assert (E : x mod 128 = y mod 128) by (unfold y; lia). rewrite E. clearbody y. clear E x.
  assert (H : forall n : nat, (n < 256)%nat ->
    (N.lor (N.of_nat n) 128 =? 128 + N.of_nat n mod 128) = true).
  { intros n Hn.
    assert (HF : forallb (fun n => N.lor (N.of_nat n) 128 =? 128 + N.of_nat n mod 128) (seq 0 256) = true)
      by (vm_compute; reflexivity).
    rewrite forallb_forall in HF. apply HF. apply in_seq. lia. }
  specialize (H (N.to_nat y) ltac:(lia)). rewrite N2Nat.id in H. apply N.eqb_eq. exact H.
Qed.

Lemma land_127 : forall y, N.land (128 + y mod 128) 127 = y mod 128.
Proof.
  intros y. change 127 with (N.ones 7). rewrite N.land_ones. change (2 ^ 7) with 128. lia.
Qed.

Lemma uvarint_bytes_length : forall fuel x b, uvarint_bytes fuel x = Some b ->
  (1 <= length b <= fuel)%nat.
Proof.
  induction fuel as [|f IH]; intros x b; cbn [uvarint_bytes]; [discriminate|].
  destruct (x <? 128); [intros [= <-]; cbn; lia|].
  destruct (uvarint_bytes f (N.shiftr x 7)) as [r|] eqn:E; [|discriminate].
  intros [= <-]. apply IH in E. cbn [length]. lia.
Qed.

Lemma uvarint_bytes_some : forall (k : nat) fuel x, (k < fuel)%nat -> x < 2 ^ (7 * (N.of_nat k + 1)) ->
  exists b, uvarint_bytes fuel x = Some b /\ (length b <= S k)%nat.
Proof.
  induction k as [|k IH]; intros [|f] x Hk Hx; try lia; cbn [uvarint_bytes].
  - change (2 ^ (7 * (N.of_nat 0 + 1))) with 128 in Hx.
    destruct (N.ltb_spec x 128); [|lia]. exists [x]. auto.
  - destruct (N.ltb_spec x 128); [exists [x]; cbn; split; [reflexivity|lia]|].
    destruct (IH f (N.shiftr x 7)) as [b [-> Hb]]; [lia| |].
    + rewrite N.shiftr_div_pow2. apply N.div_lt_upper_bound; [discriminate|].
      rewrite <- N.pow_add_r. replace (7 + 7 * (N.of_nat k + 1)) with (7 * (N.of_nat (S k) + 1)) by lia. exact Hx.
    + eexists. split; [reflexivity|]. cbn [length]. lia.
Qed.

(** Reading back, both decoders. *)
Lemma uvarint_loop_roundtrip : forall fuel x b tail i acc,
  uvarint_bytes fuel x = Some b -> (i + fuel <= 10)%nat ->
  acc < 2 ^ (7 * N.of_nat i) -> x * 2 ^ (7 * N.of_nat i) < 2 ^ 64 ->
  uvarint_loop (b ++ tail) i acc (7 * N.of_nat i) =
    (acc + x * 2 ^ (7 * N.of_nat i), Z.of_nat (i + length b)) /\
  read_uvarint_loop (b ++ tail) i acc (7 * N.of_nat i) = acc + x * 2 ^ (7 * N.of_nat i).
Proof.
  induction fuel as [|f IH]; intros x b tail i acc Hb Hi Hacc Hx; cbn [uvarint_bytes] in Hb; [discriminate|].
  destruct (N.ltb_spec x 128) as [Hlt|Hge].
  - injection Hb as <-. cbn [app uvarint_loop read_uvarint_loop].
    destruct (Nat.eqb_spec i 10); [lia|]. destruct (N.ltb_spec x 128); [|lia].
    assert (((i =? 9)%nat && (1 <? x)) = false) as ->.
    { destruct (Nat.eqb_spec i 9) as [->|]; [|reflexivity]. cbn [andb]. apply N.ltb_ge.
      change (2 ^ (7 * N.of_nat 9)) with 9223372036854775808 in Hx.
      change (2 ^ 64) with 18446744073709551616 in Hx. lia. }
    rewrite N.mod_small by (rewrite N.shiftl_mul_pow2; exact Hx).
    rewrite lor_shiftl_add by exact Hacc. cbn [length]. split; [f_equal; lia|reflexivity].
  - destruct (uvarint_bytes f (N.shiftr x 7)) as [r|] eqn:Er; [|discriminate]. injection Hb as <-.
    rewrite low_byte. cbn [app uvarint_loop read_uvarint_loop].
    destruct (Nat.eqb_spec i 10); [lia|]. destruct (N.ltb_spec (128 + x mod 128) 128); [lia|].
    rewrite land_127.
    assert (Hp : 2 ^ (7 * N.of_nat i) <> 0) by (apply N.pow_nonzero; discriminate).
    assert (Hdec : x = 128 * (x / 128) + x mod 128) by (apply N.div_mod; discriminate).
    assert (Hp7 : 2 ^ (7 * N.of_nat (S i)) = 128 * 2 ^ (7 * N.of_nat i)).
    { replace (7 * N.of_nat (S i)) with (7 + 7 * N.of_nat i) by lia. rewrite N.pow_add_r. reflexivity. }
    assert (Hm : x mod 128 < 128) by (apply N.mod_lt; discriminate).
    set (P := 2 ^ (7 * N.of_nat i)) in *. set (q := x / 128) in *. set (m := x mod 128) in *.
    assert (Hsh : N.shiftl m (7 * N.of_nat i) = m * P) by apply N.shiftl_mul_pow2.
    rewrite (N.mod_small (N.shiftl m _)) by (rewrite Hsh; nia).
    rewrite lor_shiftl_add by exact Hacc. fold P.
    replace (7 * N.of_nat i + 7) with (7 * N.of_nat (S i)) by lia.
    assert (Hq : N.shiftr x 7 = q) by (rewrite N.shiftr_div_pow2; reflexivity).
    rewrite Hq in Er.
    destruct (IH q r tail (S i) (acc + m * P) Er) as [H1 H2]; [lia|rewrite Hp7; nia|rewrite Hp7; nia|].
    rewrite H1, H2, Hp7. cbn [length]. split; [f_equal; [nia|lia]|nia].
Qed.

Lemma put_uvarint_spec : forall buf x (k : nat), x < 2 ^ 64 ->
  (1 <= k <= 10)%nat -> x < 2 ^ (7 * N.of_nat k) -> (k <= length buf)%nat ->
  exists buf', put_uvarint buf x = Some buf' /\ length buf' = length buf /\
    (exists n, (0 < n)%Z /\ uvarint buf' = (x, n)) /\ bytes_to_int buf' = x.
Proof.
  intros buf x k Hx64 Hk Hx Hlen. unfold put_uvarint.
  destruct (uvarint_bytes_some (k - 1) 10 x) as [b [Eb Lb]]; [lia| |].
  { replace (7 * (N.of_nat (k - 1) + 1)) with (7 * N.of_nat k) by lia. exact Hx. }
  rewrite Eb. destruct (Nat.leb_spec (length b) (length buf)); [|lia].
  exists (b ++ skipn (length b) buf). split; [reflexivity|].
  pose proof (uvarint_bytes_length _ _ _ Eb) as HL.
  destruct (uvarint_loop_roundtrip 10 x b (skipn (length b) buf) 0 0 Eb) as [H1 H2];
    [lia|reflexivity|change (2 ^ (7 * N.of_nat 0)) with 1; lia|].
  change (7 * N.of_nat 0) with 0 in *. change (2 ^ 0) with 1 in *.
  rewrite N.mul_1_r, N.add_0_l in H1, H2.
  split; [rewrite app_length, skipn_length; lia|]. split.
  - exists (Z.of_nat (0 + length b)). split; [lia|]. exact H1.
  - exact H2.
Qed.

Section Array.
  Context {A : Type}.
  Variable marshal : A -> option (list N).
  Variable unmarshal : list N -> option A.

  Definition encodable (a : A) : Prop :=
    exists b, marshal a = Some b /\ N.of_nat (length b) <= max_int32 /\ unmarshal b = Some a.

  Lemma decode_loop_step : forall f data acc, data <> [] ->
    decode_loop unmarshal (S f) data acc =
      if (length data <? max_varint_len32)%nat then DecPanic
      else
        let '(size, n) := uvarint (firstn max_varint_len32 data) in
        if (n <=? 0)%Z then DecErr
        else
          let rest := skipn max_varint_len32 data in
          if N.of_nat (length rest) <? size then DecPanic
          else match unmarshal (firstn (N.to_nat size) rest) with
               | None => DecErr
               | Some a => decode_loop unmarshal f (skipn (N.to_nat size) rest) (acc ++ [a])
               end.
  Proof. intros f [|c data] acc H; [congruence|reflexivity]. Qed.

  Lemma encode_decode_loop : forall arr size res acc, length size = 5%nat ->
    (forall a, In a arr -> encodable a) ->
    exists bytes, encode_loop marshal size arr res = EncOk (res ++ bytes) /\
      forall fuel, (length bytes <= fuel)%nat -> decode_loop unmarshal fuel bytes acc = DecOk (acc ++ arr).
  Proof.
    induction arr as [|a arr IH]; intros size res acc Hs Henc; cbn [encode_loop].
    - exists []. rewrite !app_nil_r. split; [reflexivity|]. intros [|f] _; reflexivity.
    - destruct (Henc a (or_introl eq_refl)) as [b [Hm [Hlen Hu]]]. rewrite Hm.
      destruct (N.ltb_spec max_int32 (N.of_nat (length b))); [lia|].
      destruct (put_uvarint_spec size (N.of_nat (length b)) 5) as [size' [Hp [Hl [[n [Hn Huv]] _]]]].
      { unfold max_int32 in Hlen. change (2 ^ 64) with 18446744073709551616. lia. }
      { lia. }
      { unfold max_int32 in Hlen. change (2 ^ (7 * N.of_nat 5)) with 34359738368. lia. }
      { lia. }
      rewrite Hp. rewrite Hs in Hl.
      destruct (IH size' (res ++ size' ++ b) (acc ++ [a]) Hl) as [bytes [He Hd]];
        [intros a' Ha'; apply Henc; right; exact Ha'|].
      exists ((size' ++ b) ++ bytes). rewrite He. split; [rewrite <- !app_assoc; reflexivity|].
      intros fuel Hfu. rewrite <- app_assoc in *.
      destruct fuel as [|fuel].
      { rewrite !app_length in Hfu. lia. }
      rewrite decode_loop_step by (intros E; apply (f_equal (@length _)) in E; rewrite app_length in E; cbn in E; lia).
      set (hd := size') in *.
      rewrite !app_length in Hfu. rewrite Hl in Hfu.
      destruct (Nat.ltb_spec (length (hd ++ b ++ bytes)) max_varint_len32) as [Hbad|_].
      { rewrite !app_length, Hl in Hbad. unfold max_varint_len32 in Hbad. lia. }
      assert (Hf : firstn max_varint_len32 (hd ++ b ++ bytes) = hd).
      { unfold max_varint_len32. rewrite <- Hl. apply firstn_app_exact. }
      assert (Hk : skipn max_varint_len32 (hd ++ b ++ bytes) = b ++ bytes).
      { unfold max_varint_len32. rewrite <- Hl. apply skipn_app_exact. }
      cbv zeta. rewrite Hf, Hk, Huv. cbv beta iota. destruct (Z.leb_spec n 0); [lia|].
      destruct (N.ltb_spec (N.of_nat (length (b ++ bytes))) (N.of_nat (length b))) as [Hbad|_].
      { rewrite app_length in Hbad. lia. }
      rewrite Nat2N.id, firstn_app_exact, skipn_app_exact, Hu.
      rewrite Hd by lia. reflexivity.
  Qed.

  Lemma encode_decode : forall arr, (forall a, In a arr -> encodable a) ->
    exists bytes, encode_array marshal arr = EncOk bytes /\ decode_array unmarshal bytes = DecOk arr.
  Proof.
    intros arr H. destruct (encode_decode_loop arr (repeat 0 max_varint_len32) [] []) as [bytes [He Hd]];
      [reflexivity|exact H|].
    exists bytes. split; [exact He|]. apply (Hd (length bytes)). lia.
  Qed.

  (** Nothing is encoded when a record is too large or cannot be marshalled. *)
  Lemma encode_reject : forall arr size res, length size = 5%nat ->
    (exists a, In a arr /\ (marshal a = None \/ exists b, marshal a = Some b /\ max_int32 < N.of_nat (length b))) ->
    encode_loop marshal size arr res = EncErr.
  Proof.
    induction arr as [|a arr IH]; intros size res Hs [x [Hin Hx]]; [destruct Hin|]. cbn [encode_loop].
    destruct (marshal a) as [b|] eqn:Em; [|reflexivity].
    destruct (N.ltb_spec max_int32 (N.of_nat (length b))) as [|Hle]; [reflexivity|].
    destruct (put_uvarint_spec size (N.of_nat (length b)) 5) as [size' [Hp [Hl _]]].
    { unfold max_int32 in Hle. change (2 ^ 64) with 18446744073709551616. lia. }
    { lia. }
    { unfold max_int32 in Hle. change (2 ^ (7 * N.of_nat 5)) with 34359738368. lia. }
    { lia. }
    rewrite Hp. apply IH; [lia|]. destruct Hin as [<-|Hin].
    - destruct Hx as [Hx|[b' [Hb' Hlt]]]; [congruence|]. rewrite Em in Hb'. injection Hb' as <-. lia.
    - exists x. auto.
  Qed.
End Array.

Lemma int_bytes_roundtrip : forall i, i < 2 ^ 64 ->
  exists b, int_to_bytes i = Some b /\ length b = 10%nat /\ bytes_to_int b = i.
Proof.
  intros i Hi. unfold int_to_bytes.
  destruct (put_uvarint_spec (repeat 0 max_varint_len64) i 10 Hi) as [b [H1 [H2 [_ H3]]]];
    [lia| |cbn; lia|eauto].
  change (2 ^ 64) with 18446744073709551616 in Hi.
  change (2 ^ (7 * N.of_nat 10)) with 1180591620717411303424. lia.
Qed.
