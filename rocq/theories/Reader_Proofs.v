From Verif Require Import ListX Reader_Model.
From Coq Require Import ZifyBool ZifyNat ZifyN.

Lemma block_pos : 0 < block.
Proof. unfold block. lia. Qed.
Lemma block_big : 4095 < block.
Proof. unfold block. lia. Qed.
Lemma block_Z : Z.of_nat block = 4096%Z.
Proof. unfold block. apply Z2Nat.id. lia. Qed.
#[global] Opaque block.

Lemma aligned_size_spec : forall n, n <= aligned_size n /\ aligned_size n < n + block /\ aligned_size n mod block = 0.
Proof.
  intros n. pose proof block_pos as Hb. unfold aligned_size. destruct (Nat.eqb_spec (n mod block) 0) as [E|E]; [repeat split; [lia|lia|exact E]|].
  assert (Hm : n mod block < block) by (apply Nat.mod_upper_bound; lia).
  assert (Hd : n = block * (n / block) + n mod block) by (apply Nat.div_mod; lia).
  set (r := n mod block) in *. set (q := n / block) in *. clearbody q r.
  repeat split; [nia|nia|].
  replace (n - r + block) with ((q + 1) * block) by nia.
  apply Nat.mod_mul. lia.
Qed.

Lemma aligned_size_le : forall n m, n <= m -> m mod block = 0 -> aligned_size n <= m.
Proof.
  intros n m Hnm Hm. pose proof block_pos as Hb. destruct (aligned_size_spec n) as [H1 [H2 H3]].
  apply Nat.mod_divides in Hm as [a ->]; [|lia]. apply Nat.mod_divides in H3 as [b H3]; [|lia].
  rewrite H3 in *. assert (b < a + 1); [|apply Nat.mul_le_mono_l; lia].
  apply (Nat.mul_lt_mono_pos_l block); [exact Hb|]. rewrite Nat.mul_add_distr_l. lia.
Qed.

Lemma aligned_size_id : forall n, n mod block = 0 -> aligned_size n = n.
Proof. intros n H. unfold aligned_size. rewrite H. reflexivity. Qed.

Section Byte.
  Context {B : Type}.
  Variable zero : B.

  (** ** Padded copy *)
  Definition pad_len (p n : nat) : nat := Nat.min p (aligned_size (n mod p)) - n mod p.

  Lemma copy_loop_spec : forall p, 0 < p -> forall fuel (bt : list B) fails out, length bt < fuel * p ->
    copy_loop zero fuel p {| src_bytes := bt; src_fails := fails |} out =
      Some (out ++ bt ++ repeat zero (pad_len p (length bt)), fails).
  Proof.
    intros p Hp. induction fuel as [|f IH]; intros bt fails out Hf; [lia|].
    cbn [copy_loop]. unfold aligned_read. cbn [src_bytes src_fails].
    destruct (Nat.eqb_spec (length (firstn p bt)) p) as [E|E]; rewrite firstn_length in E.
    - assert (Hl : length (firstn p bt) = p) by (rewrite firstn_length; lia).
      rewrite Hl. destruct (aligned_size_spec p) as [Ha _].
      replace (Nat.min p (aligned_size p) - p) with 0 by lia. cbn [repeat]. rewrite app_nil_r.
      rewrite IH by (rewrite skipn_length; lia).
      rewrite skipn_length. f_equal. f_equal. rewrite <- !app_assoc. f_equal. rewrite app_assoc.
      rewrite firstn_skipn. f_equal. f_equal. unfold pad_len.
      assert (Em : (length bt - p) mod p = length bt mod p).
      { rewrite <- (Nat.mod_add (length bt - p) 1 p) by lia. f_equal. lia. }
      rewrite Em. reflexivity.
    - assert (Hl : length bt < p) by lia. rewrite firstn_all2 by lia.
      unfold src_end. cbn [src_fails].
      assert (Em : pad_len p (length bt) = Nat.min p (aligned_size (length bt)) - length bt).
      { unfold pad_len. rewrite Nat.mod_small by exact Hl. reflexivity. }
      rewrite Em. destruct fails; reflexivity.
  Qed.

  Lemma copy_padded_spec : forall p (bt : list B) fails, 0 < p ->
    copy_padded zero p {| src_bytes := bt; src_fails := fails |} =
      Some (bt ++ repeat zero (pad_len p (length bt)), fails).
  Proof.
    intros p bt fails Hp. unfold copy_padded. destruct (Nat.eqb_spec p 0); [lia|]. cbn [src_bytes].
    rewrite copy_loop_spec; [reflexivity|exact Hp|nia].
  Qed.

  Lemma pad_len_lt : forall p n, 0 < p -> pad_len p n < block.
  Proof.
    intros p n Hp. unfold pad_len. destruct (aligned_size_spec (n mod p)) as [H1 [H2 _]].
    pose proof block_pos. lia.
  Qed.

  Lemma pad_len_block : forall p n, 0 < p -> p mod block = 0 -> pad_len p n = aligned_size n - n.
  Proof.
    intros p n Hp Hb. unfold pad_len. pose proof block_pos as Hblk.
    assert (Hm : n mod p < p) by (apply Nat.mod_upper_bound; lia).
    pose proof (aligned_size_le (n mod p) p ltac:(lia) Hb) as Hle. rewrite Nat.min_r by exact Hle.
    apply Nat.mod_divides in Hb as [a Ha]; [|lia].
    assert (Ha0 : a <> 0) by (intros ->; lia).
    assert (Emm : (n mod p) mod block = n mod block).
    { rewrite Ha. rewrite Nat.mod_mul_r by lia.
      rewrite Nat.add_mod, (Nat.mul_comm block), Nat.mod_mul, Nat.add_0_r, !Nat.mod_mod by lia. reflexivity. }
    unfold aligned_size. rewrite Emm. destruct (Nat.eqb_spec (n mod block) 0); [lia|].
    assert (n mod block <= n) by (apply Nat.mod_le; lia).
    assert (n mod block <= n mod p) by (rewrite <- Emm; apply Nat.mod_le; lia).
    lia.
  Qed.

  (** ** Limited reads *)

  (** A buffer the limited reader accepts at this point. *)
  Definition buffer_ok (req : nat * nat * nat) : Prop :=
    let '(_, p, c) := req in 0 < p /\ p <= c /\ p mod block = 0.

  Lemma limited_read_spec : forall k p c limit (f : list B), 0 < p -> p <= c ->
    (limit < p -> aligned_size limit <= c) ->
    exists bt err limit' f',
      limited_read k p c limit f = Some (bt, err, limit', f') /\
      firstn limit f = bt ++ firstn limit' f' /\
      (err = NoErr -> bt <> [] /\ length f' < length f) /\
      (err <> NoErr -> err = EOF /\ bt = [] /\ firstn limit' f' = []).
  Proof.
    intros k p c limit f Hp Hc Hal. unfold limited_read.
    destruct (Nat.eqb_spec limit 0) as [->|Hl].
    { exists [], EOF, 0, f. cbn. repeat split; congruence. }
    set (p' := if limit <? p then aligned_size limit else p).
    assert (Hp' : 0 < p' <= c /\ (p' < limit -> p' = p) /\ (limit <= p' \/ p' <= limit)).
    { unfold p'. destruct (aligned_size_spec limit) as [H1 _]. destruct (Nat.ltb_spec limit p); lia. }
    destruct (Nat.ltb_spec c p') as [Hbad|_]; [lia|].
    unfold file_read. destruct (Nat.eqb_spec p' 0) as [Hp0|_]; [lia|].
    destruct f as [|x f0] eqn:Ef.
    - exists [], EOF, (limit - 0), []. cbn [length firstn].
      assert ((if limit <? 0 then limit else 0) = 0) as -> by (destruct (Nat.ltb_spec limit 0); lia).
      rewrite !firstn_nil. repeat split; congruence.
    - rewrite <- Ef. set (n := Nat.min p' (S k)). set (bt := firstn n f).
      set (m := if limit <? length bt then limit else length bt).
      assert (Hlen : 0 < length f) by (rewrite Ef; cbn; lia).
      assert (Hbt : length bt = Nat.min n (length f)) by apply firstn_length.
      assert (Hm : m = Nat.min limit (length bt)) by (unfold m; destruct (Nat.ltb_spec limit (length bt)); lia).
      exists (firstn m bt), NoErr, (limit - m), (skipn n f). split; [reflexivity|].
      split; [|split].
      + destruct (Nat.le_gt_cases (length bt) limit) as [Hle|Hgt].
        * assert (m = length bt) by lia. rewrite (firstn_all2 bt (n := m)) by lia.
          destruct (Nat.le_gt_cases n (length f)) as [Hn|Hn].
          -- replace limit with (n + (limit - n)) at 1 by lia. rewrite firstn_add. fold bt. f_equal. f_equal. lia.
          -- unfold bt. rewrite (firstn_all2 f (n := n)) by lia. rewrite (skipn_all2 f (n := n)) by lia.
             rewrite firstn_nil, app_nil_r. apply firstn_all2. lia.
        * assert (m = limit) by lia. replace (limit - m) with 0 by lia. cbn [firstn]. rewrite app_nil_r.
          subst m. rewrite H. unfold bt. rewrite firstn_firstn. f_equal. lia.
      + intros _. split.
        * intros E. apply (f_equal (@length _)) in E. rewrite firstn_length in E. cbn in E. lia.
        * rewrite skipn_length. lia.
      + congruence.
  Qed.

  Lemma read_all_spec : forall reqs limit (f : list B) out, Forall buffer_ok reqs ->
    exists bt fin, read_all reqs limit f out = Some (out ++ bt, fin) /\
      (exists rest, firstn limit f = bt ++ rest) /\
      (fin = true -> bt = firstn limit f) /\
      (fin = false -> length reqs <= length f).
  Proof.
    induction reqs as [|[[k p] c] reqs IH]; intros limit f out HF; cbn [read_all].
    - exists [], false. rewrite app_nil_r. split; [reflexivity|]. split; [eexists; reflexivity|].
      split; [discriminate|]. cbn. lia.
    - inversion HF as [|? ? Hok HF']; subst. destruct Hok as [Hp [Hc Hb]].
      destruct (limited_read_spec k p c limit f Hp Hc) as [bt [err [limit' [f' [E [Hsplit [Hne He]]]]]]].
      { intros Hlt. pose proof (aligned_size_le limit p ltac:(lia) Hb). lia. }
      rewrite E. destruct err.
      + destruct (IH limit' f' (out ++ bt) HF') as [bt2 [fin [E2 [[rest Hr] [Hfin Hnf]]]]].
        exists (bt ++ bt2), fin. rewrite E2, <- app_assoc. split; [reflexivity|].
        split; [exists rest; rewrite Hsplit, Hr, app_assoc; reflexivity|]. split.
        * intros Hf. rewrite (Hfin Hf), Hsplit. reflexivity.
        * intros Hf. specialize (Hnf Hf). destruct (Hne eq_refl) as [_ Hlt]. cbn [length]. lia.
      + destruct (He ltac:(discriminate)) as [_ [Hbt Hrest]].
        exists bt, true. split; [reflexivity|]. rewrite Hsplit, Hrest. rewrite app_nil_r.
        split; [exists []; rewrite app_nil_r; reflexivity|]. split; [reflexivity|discriminate].
      + destruct (He ltac:(discriminate)) as [E3 _]. discriminate E3.
  Qed.

  (** ** Multi reader *)

  Definition script_bytes (r : list (event B)) : list B :=
    flat_map (fun e => match e with Chunk c => c | Fail => [] end) r.
  Definition never_fails (r : list (event B)) : Prop := ~ In Fail r.
  Definition all_bytes (rs : list (list (event B))) : list B := flat_map script_bytes rs.
  Definition weight (rs : list (list (event B))) : nat := list_sum (map (fun r => S (length r)) rs).

  Lemma weight_cons : forall r rs, weight (r :: rs) = S (length r) + weight rs.
  Proof. reflexivity. Qed.

  Lemma multi_read_spec : forall p fuel readers (acc : list B),
    Forall never_fails readers -> length acc < p -> weight readers <= fuel ->
    exists bt err readers', multi_read fuel p readers acc = Some (bt, err, readers') /\
      bt = acc ++ firstn (p - length acc) (all_bytes readers) /\
      all_bytes readers' = skipn (p - length acc) (all_bytes readers) /\
      Forall never_fails readers' /\ err <> Failed /\ (err = EOF -> all_bytes readers' = []) /\
      (err = NoErr -> length bt = p).
  Proof.
    intros p fuel. induction fuel as [|f IH]; intros readers acc HF Hacc Hw.
    - destruct readers as [|r rs]; [|cbn in Hw; lia]. cbn [multi_read].
      exists acc, EOF, []. cbn. rewrite firstn_nil, skipn_nil, app_nil_r. repeat split; try congruence.
    - destruct readers as [|r rs]; cbn [multi_read].
      { exists acc, EOF, []. cbn. rewrite firstn_nil, skipn_nil, app_nil_r. repeat split; try congruence. }
      inversion HF as [|? ? Hr HF']; subst.
      destruct r as [|ev r]; cbn [script_read].
      + rewrite app_nil_r. destruct (Nat.leb_spec p (length acc)); [lia|].
        change (all_bytes ([] :: rs)) with (all_bytes rs).
        apply IH; [exact HF'|exact Hacc|rewrite weight_cons in Hw; lia].
      + destruct ev as [c|]; [|exfalso; apply Hr; left; reflexivity].
        assert (Hr' : never_fails r) by (intros Hin; apply Hr; right; exact Hin).
        cbn [all_bytes flat_map script_bytes]. fold (script_bytes r). fold (all_bytes rs).
        destruct (Nat.leb_spec (length c) (p - length acc)) as [Hle|Hgt]; cbv zeta beta iota.
        * destruct (Nat.leb_spec p (length (acc ++ c))) as [Hfull|Hmore]; rewrite app_length in *.
          -- exists (acc ++ c), NoErr, (r :: rs). assert (length c = p - length acc) by lia.
             split; [reflexivity|]. rewrite <- !app_assoc, <- H.
             split; [rewrite firstn_app_exact; reflexivity|].
             split; [rewrite skipn_app_exact; reflexivity|].
             split; [constructor; assumption|]. split; [discriminate|]. split; [discriminate|].
             intros _. rewrite app_length. lia.
          -- destruct (IH (r :: rs) (acc ++ c)) as [bt [err [rd [E [Hbt [Hrest HH]]]]]].
             { constructor; assumption. }
             { rewrite app_length. lia. }
             { rewrite weight_cons in *. cbn [length] in Hw. lia. }
             exists bt, err, rd. split; [exact E|].
             rewrite app_length in Hbt, Hrest.
             cbn [all_bytes flat_map] in Hbt, Hrest. fold (all_bytes rs) in Hbt, Hrest.
             rewrite <- app_assoc. split; [|split; [|exact HH]].
             ++ rewrite Hbt, <- app_assoc. f_equal.
                replace (p - length acc) with (length c + (p - (length acc + length c))) by lia.
                rewrite firstn_add, firstn_app_exact, skipn_app_exact. reflexivity.
             ++ rewrite Hrest.
                replace (p - length acc) with (length c + (p - (length acc + length c))) by lia.
                rewrite <- skipn_add, skipn_app_exact. reflexivity.
        * assert (Hfl : length (firstn (p - length acc) c) = p - length acc) by (rewrite firstn_length; lia).
          destruct (Nat.leb_spec p (length (acc ++ firstn (p - length acc) c))) as [_|Hbad];
            [|rewrite app_length, Hfl in Hbad; lia].
          exists (acc ++ firstn (p - length acc) c), NoErr, ((Chunk (skipn (p - length acc) c) :: r) :: rs).
          split; [reflexivity|]. rewrite <- app_assoc.
          split; [rewrite firstn_app_le by lia; reflexivity|].
          split; [cbn; rewrite <- app_assoc, skipn_app_le by lia; reflexivity|].
          split; [constructor; [|assumption]; intros [Hin|Hin]; [discriminate|contradiction]|].
          split; [discriminate|]. split; [discriminate|]. intros _. rewrite app_length, Hfl. lia.
  Qed.

  (** A lasting read error is never reported while the buffer is not full. *)
  Lemma multi_read_stuck : forall fuel p r rs (acc : list B), length acc < p ->
    multi_read fuel p ((Fail :: r) :: rs) acc = None.
  Proof.
    induction fuel as [|f IH]; intros p r rs acc H; cbn [multi_read script_read]; [reflexivity|].
    rewrite app_nil_r. destruct (Nat.leb_spec p (length acc)); [lia|]. apply IH. exact H.
  Qed.

  (** ** Size-aware append *)

  Lemma write_with_size_spec : forall (cur data : list B) pad p, 0 < p -> p mod block = 0 ->
    0 < pad < block -> (length cur + pad) mod block = 0 ->
    write_file_with_size zero (cur ++ repeat zero pad) (length cur) data p =
      Some (cur ++ data ++ repeat zero (aligned_size (length cur + length data) - (length cur + length data))).
  Proof.
    intros cur data pad p Hp Hpb Hpad Hal. pose proof block_pos as Hb.
    unfold write_file_with_size. set (file := cur ++ repeat zero pad).
    assert (Hlen : length file = length cur + pad) by (unfold file; rewrite app_length, repeat_length; reflexivity).
    rewrite Hlen. destruct (Nat.leb_spec (block + length cur) (length cur + pad)); [lia|].
    destruct (Nat.ltb_spec (length cur) (length cur + pad)); [|lia].
    pose proof (aligned_size_le 1 (length cur + pad) ltac:(lia) Hal) as H1.
    assert (Hge : block <= length cur + pad).
    { apply Nat.mod_divides in Hal as [q Hq]; [|lia]. rewrite Hq. destruct q; [lia|]. nia. }
    destruct (Nat.ltb_spec (length cur + pad) block); [lia|].
    set (off := length cur + pad - block).
    assert (Hoff : off <= length cur) by (unfold off; lia).
    assert (Htail : skipn off file = skipn off cur ++ repeat zero pad).
    { unfold file. apply skipn_app_le. exact Hoff. }
    rewrite Htail.
    assert (Htl : length (skipn off cur ++ repeat zero pad) - (length cur + pad - length cur) = length (skipn off cur)).
    { rewrite app_length, repeat_length, skipn_length. lia. }
    rewrite Htl, firstn_app_exact.
    rewrite copy_padded_spec by exact Hp. f_equal.
    unfold write_at.
    assert (Hf : firstn off file = firstn off cur) by (unfold file; apply firstn_app_le; exact Hoff).
    rewrite Hf.
    assert (Hoffm : off mod block = 0).
    { unfold off. apply Nat.mod_divides in Hal as [q Hq]; [|lia]. rewrite Hq.
      replace (block * q - block) with ((q - 1) * block) by nia. apply Nat.mod_mul. lia. }
    set (n := length (skipn off cur ++ data)).
    assert (Hn : n = length cur - off + length data) by (unfold n; rewrite app_length, skipn_length; reflexivity).
    assert (Hpl : pad_len p n = aligned_size (length cur + length data) - (length cur + length data)).
    { rewrite pad_len_block by assumption.
      assert (Emod : n mod block = (length cur + length data) mod block).
      { replace (length cur + length data) with (n + off) by lia.
        rewrite Nat.add_mod, Hoffm, Nat.add_0_r, Nat.mod_mod by lia. reflexivity. }
      assert (Hle : (length cur + length data) mod block <= n) by (rewrite <- Emod; apply Nat.mod_le; lia).
      unfold aligned_size. rewrite Emod. destruct (Nat.eqb_spec ((length cur + length data) mod block) 0); lia. }
    rewrite Hpl. rewrite (skipn_all2 file).
    - rewrite app_nil_r, <- !app_assoc, (app_assoc (firstn off cur)), firstn_skipn. reflexivity.
    - rewrite !app_length, skipn_length, repeat_length, Hlen.
      destruct (aligned_size_spec (length cur + length data)) as [Ha1 [Ha2 Ha3]].
      pose proof (aligned_size_le 1 (aligned_size (length cur + length data))) as Hx.
      (* the rewritten last page covers the old file end *)
      apply Nat.mod_divides in Hal as [q Hq]; [|lia]. apply Nat.mod_divides in Ha3 as [q' Hq']; [|lia].
      unfold off. assert (length cur + pad <= aligned_size (length cur + length data)); [|lia].
      rewrite Hq, Hq'. assert (length cur <= block * q') by lia.
      assert (q <= q'); [|nia]. destruct (Nat.le_gt_cases q q') as [|Hgt]; [assumption|]. nia.
  Qed.
End Byte.

Lemma padded_write : forall (B : Type) (zero : B) p bt fails, 0 < p ->
  exists pad, pad < block /\
    copy_padded zero p {| src_bytes := bt; src_fails := fails |} = Some (bt ++ repeat zero pad, fails) /\
    (p mod block = 0 -> (length bt + pad) mod block = 0).
Proof.
  intros B zero p bt fails Hp. exists (pad_len p (length bt)).
  split; [apply pad_len_lt; exact Hp|]. split; [apply copy_padded_spec; exact Hp|].
  intros Hb. rewrite pad_len_block by assumption.
  destruct (aligned_size_spec (length bt)) as [H1 [_ H3]].
  replace (length bt + (aligned_size (length bt) - length bt)) with (aligned_size (length bt)) by lia. exact H3.
Qed.

Lemma write_read_identity : forall (B : Type) (zero : B) p data file reqs bt,
  0 < p -> append_aligned zero [] p {| src_bytes := data; src_fails := false |} = Some (file, false) ->
  Forall (fun req => let '(_, q, c) := req in 0 < q /\ q <= c /\ q mod block = 0) reqs ->
  read_all reqs (length data) file [] = Some (bt, true) -> bt = data.
Proof.
  intros B zero p data file reqs bt Hp Hw HF Hr. unfold append_aligned in Hw.
  rewrite copy_padded_spec in Hw by exact Hp. injection Hw as <-.
  destruct (read_all_spec reqs (length data) (data ++ repeat zero (pad_len p (length data))) [] HF)
    as [bt' [fin [E [_ [Hfin _]]]]].
  cbn [app] in *. rewrite Hr in E. injection E as <- <-. rewrite (Hfin eq_refl). apply firstn_app_exact.
Qed.

Lemma multi_read_exact : forall (B : Type) p fuel (readers : list (list (event B))),
  Forall (fun r => ~ In Fail r) readers -> 0 < p ->
  list_sum (map (fun r => S (length r)) readers) <= fuel ->
  exists bt err readers', multi_read fuel p readers [] = Some (bt, err, readers') /\
    bt = firstn p (all_bytes readers) /\ all_bytes readers' = skipn p (all_bytes readers) /\
    err <> Failed /\ (err = EOF -> all_bytes readers' = []) /\ (err = NoErr -> length bt = p).
Proof.
  intros B p fuel readers HF Hp Hw.
  destruct (multi_read_spec p fuel readers [] HF Hp Hw) as [bt [err [rd [E [H1 [H2 [_ H3]]]]]]].
  cbn [length app] in H1, H2. rewrite Nat.sub_0_r in H1, H2. exists bt, err, rd. auto.
Qed.

Lemma append_with_size : forall (B : Type) (zero : B) cur data pad p, 0 < p -> p mod block = 0 ->
  0 < pad < block -> (length cur + pad) mod block = 0 ->
  exists pad', pad' < block /\ (length cur + length data + pad') mod block = 0 /\
  write_file_with_size zero (cur ++ repeat zero pad) (length cur) data p =
    Some (cur ++ data ++ repeat zero pad').
Proof.
  intros B zero cur data pad p Hp Hb Hpad Hal.
  exists (aligned_size (length cur + length data) - (length cur + length data)).
  destruct (aligned_size_spec (length cur + length data)) as [H1 [H2 H3]].
  split; [lia|]. split; [|apply write_with_size_spec; assumption].
  replace (length cur + length data + (aligned_size (length cur + length data) - (length cur + length data)))
    with (aligned_size (length cur + length data)) by lia. exact H3.
Qed.

Lemma append_aligned_overwrites : exists (cur data : list nat) file',
  length cur mod block = 0 /\
  write_file_with_size 0 cur (length cur) data block = Some file' /\ firstn (length cur) file' <> cur.
Proof.
  exists (repeat 1 block), [2]. eexists.
  split; [rewrite repeat_length; apply Nat.mod_same; pose proof block_pos; lia|].
  split; [vm_compute; reflexivity|]. vm_compute. discriminate.
Qed.
