From Verif Require Import Str_Model.
From Coq Require Import Decimal DecimalN DecimalFacts DecimalPos.

Lemma str_eqb_spec : forall a b, reflect (a = b) (str_eqb a b).
Proof. intros a b. unfold str_eqb. destruct (str_eq_dec a b); constructor; assumption. Qed.

Lemma str_eqb_refl : forall a, str_eqb a a = true.
Proof. intros a. destruct (str_eqb_spec a a); congruence. Qed.

Lemma str_eqb_eq : forall a b, str_eqb a b = true <-> a = b.
Proof. intros a b. destruct (str_eqb_spec a b); split; congruence. Qed.

Lemma str_to_uint_of : forall u, str_to_uint (uint_to_str u) = Some u.
Proof. induction u as [|u IH|u IH|u IH|u IH|u IH|u IH|u IH|u IH|u IH|u IH];
  cbn [uint_to_str str_to_uint digit_of]; [reflexivity|rewrite IH; reflexivity ..]. Qed.

Lemma uint_to_str_inj : forall u v, uint_to_str u = uint_to_str v -> u = v.
Proof.
  intros u v H. apply (f_equal str_to_uint) in H. rewrite !str_to_uint_of in H. congruence.
Qed.

Lemma to_uint_nonnil : forall n, N.to_uint n <> Nil.
Proof.
  intros n H.
  pose proof (DecimalN.Unsigned.of_to n) as E. rewrite H in E. cbn in E. subst n. discriminate H.
Qed.

Lemma print_N_nonempty : forall n, print_N n <> [].
Proof.
  intros n H. unfold print_N in H. apply (to_uint_nonnil n).
  destruct (N.to_uint n); cbn in H; congruence.
Qed.

Lemma parse_print_N : forall n, parse_digits (print_N n) = Some n.
Proof.
  intros n. unfold parse_digits.
  destruct (print_N n) as [|c s] eqn:E; [exfalso; eapply print_N_nonempty; eassumption|].
  rewrite <- E. unfold print_N. rewrite str_to_uint_of, DecimalN.Unsigned.of_to. reflexivity.
Qed.

Lemma print_N_inj : forall n m, print_N n = print_N m -> n = m.
Proof.
  intros n m H. apply (f_equal parse_digits) in H. rewrite !parse_print_N in H. congruence.
Qed.

Definition is_digit (c : ascii) : Prop := digit_of c <> None.

Lemma uint_to_str_digits : forall u, Forall is_digit (uint_to_str u).
Proof.
  induction u as [|u IH|u IH|u IH|u IH|u IH|u IH|u IH|u IH|u IH|u IH]; cbn;
    constructor; try assumption; unfold is_digit; cbn; discriminate.
Qed.

Lemma print_N_digits : forall n, Forall is_digit (print_N n).
Proof. intros n. apply uint_to_str_digits. Qed.

Lemma digit_not : forall c d, is_digit c -> digit_of d = None -> c <> d.
Proof. intros c d H1 H2 ->. unfold is_digit in H1. congruence. Qed.

Lemma print_N_notin : forall n d, digit_of d = None -> ~ In d (print_N n).
Proof.
  intros n d Hd Hin. pose proof (print_N_digits n) as F.
  rewrite Forall_forall in F. specialize (F d Hin). unfold is_digit in F. congruence.
Qed.

Lemma atoi_print_N : forall n, (Z.of_N n <= int64_max)%Z -> atoi (print_N n) = Some (Z.of_N n).
Proof.
  intros n Hn. unfold atoi.
  destruct (print_N n) as [|c s] eqn:E; [exfalso; eapply print_N_nonempty; eassumption|].
  assert (Hc : is_digit c).
  { pose proof (print_N_digits n) as F. rewrite E in F. inversion F; assumption. }
  assert (H1 : c <> "-"%char) by (apply digit_not; [assumption|reflexivity]).
  assert (H2 : c <> "+"%char) by (apply digit_not; [assumption|reflexivity]).
  assert (Hp : parse_digits (c :: s) = Some n) by (rewrite <- E; apply parse_print_N).
  rewrite Hp.
  assert (Hgoal : (if (int64_min <=? Z.of_N n)%Z && (Z.of_N n <=? int64_max)%Z
                   then Some (Z.of_N n) else None) = Some (Z.of_N n)).
  { assert ((int64_min <=? Z.of_N n)%Z = true) as ->.
    { apply Z.leb_le. unfold int64_min. lia. }
    assert ((Z.of_N n <=? int64_max)%Z = true) as -> by (apply Z.leb_le; assumption).
    reflexivity. }
  destruct c as [[] [] [] [] [] [] [] []]; try exact Hgoal; exfalso; congruence.
Qed.

Lemma print_Z_of_N : forall n, print_Z (Z.of_N n) = print_N n.
Proof. destruct n; reflexivity. Qed.

Lemma print_Z_nonneg : forall z, (0 <= z)%Z -> print_Z z = print_N (Z.to_N z).
Proof. intros [|p|p] H; try reflexivity. lia. Qed.

Lemma atoi_print_Z : forall z, (0 <= z <= int64_max)%Z -> atoi (print_Z z) = Some z.
Proof.
  intros z Hz. rewrite print_Z_nonneg by lia. rewrite atoi_print_N by (rewrite Z2N.id; lia).
  rewrite Z2N.id by lia. reflexivity.
Qed.

Lemma atoi_range : forall s z, atoi s = Some z -> (int64_min <= z <= int64_max)%Z.
Proof.
  intros s z. unfold atoi.
  match goal with |- context [match ?m with Some _ => _ | None => None end = _] => destruct m as [w|] end;
    [|discriminate].
  destruct ((int64_min <=? w)%Z && (w <=? int64_max)%Z) eqn:E; [|discriminate].
  intros [= <-]. apply andb_true_iff in E as [E1 E2]. apply Z.leb_le in E1, E2. lia.
Qed.

Lemma split_on_nonempty : forall sep s, split_on sep s <> [].
Proof.
  intros sep [|c s]; cbn; [discriminate|].
  destruct (ascii_dec c sep); [discriminate|]. destruct (split_on sep s); discriminate.
Qed.

Lemma split_on_notin : forall sep s, ~ In sep s -> split_on sep s = [s].
Proof.
  intros sep s. induction s as [|c s IH]; cbn; intros H; [reflexivity|].
  destruct (ascii_dec c sep) as [->|Hc]; [exfalso; apply H; left; reflexivity|].
  rewrite IH by (intro; apply H; right; assumption). reflexivity.
Qed.

Lemma split_on_app : forall sep a b, ~ In sep a -> split_on sep (a ++ sep :: b) = a :: split_on sep b.
Proof.
  intros sep a b. induction a as [|c a IH]; cbn; intros H.
  - destruct (ascii_dec sep sep); [reflexivity|congruence].
  - destruct (ascii_dec c sep) as [->|Hc]; [exfalso; apply H; left; reflexivity|].
    rewrite IH by (intro; apply H; right; assumption). reflexivity.
Qed.

Lemma cut_on_app : forall sep a b, ~ In sep a -> cut_on sep (a ++ sep :: b) = Some (a, b).
Proof.
  intros sep a b. induction a as [|c a IH]; cbn; intros H.
  - destruct (ascii_dec sep sep); [reflexivity|congruence].
  - destruct (ascii_dec c sep) as [->|Hc]; [exfalso; apply H; left; reflexivity|].
    rewrite IH by (intro; apply H; right; assumption). reflexivity.
Qed.

Lemma cut_on_none : forall sep a, ~ In sep a -> cut_on sep a = None.
Proof.
  intros sep a. induction a as [|c a IH]; cbn; intros H; [reflexivity|].
  destruct (ascii_dec c sep) as [->|Hc]; [exfalso; apply H; left; reflexivity|].
  rewrite IH by (intro; apply H; right; assumption). reflexivity.
Qed.

Lemma cut_on_some : forall sep s a b, cut_on sep s = Some (a, b) -> s = a ++ sep :: b /\ ~ In sep a.
Proof.
  intros sep s. induction s as [|c s IH]; cbn; intros a b H; [discriminate|].
  destruct (ascii_dec c sep) as [->|Hc].
  - injection H as <- <-. split; [reflexivity|intros []].
  - destruct (cut_on sep s) as [[a' b']|] eqn:E; [|discriminate].
    injection H as <- <-. destruct (IH a' b' eq_refl) as [-> Hn].
    split; [reflexivity|]. intros [->|Hi]; [congruence|auto].
Qed.

Lemma str_ltb_irrefl : forall a, str_ltb a a = false.
Proof. induction a as [|x a IH]; cbn; [reflexivity|]. rewrite N.ltb_irrefl, N.eqb_refl. exact IH. Qed.

Lemma str_ltb_trans : forall a b c, str_ltb a b = true -> str_ltb b c = true -> str_ltb a c = true.
Proof.
  induction a as [|x a IH]; intros [|y b] [|z c]; cbn; try discriminate; try reflexivity.
  intros H1 H2.
  destruct (N.ltb_spec (N_of_ascii x) (N_of_ascii y)) as [Hxy|Hxy];
  destruct (N.ltb_spec (N_of_ascii y) (N_of_ascii z)) as [Hyz|Hyz];
  destruct (N.ltb_spec (N_of_ascii x) (N_of_ascii z)) as [Hxz|Hxz]; try reflexivity;
  destruct (N.eqb_spec (N_of_ascii x) (N_of_ascii y)) as [Exy|Exy];
  destruct (N.eqb_spec (N_of_ascii y) (N_of_ascii z)) as [Eyz|Eyz];
  destruct (N.eqb_spec (N_of_ascii x) (N_of_ascii z)) as [Exz|Exz];
  try discriminate; try lia. eapply IH; eassumption.
Qed.

Lemma N_of_ascii_inj : forall x y, N_of_ascii x = N_of_ascii y -> x = y.
Proof. intros x y H. rewrite <- (ascii_N_embedding x), <- (ascii_N_embedding y), H. reflexivity. Qed.

Lemma str_ltb_total : forall a b, str_ltb a b = true \/ a = b \/ str_ltb b a = true.
Proof.
  induction a as [|x a IH]; intros [|y b]; cbn; auto.
  destruct (N.ltb_spec (N_of_ascii x) (N_of_ascii y)) as [Hxy|Hxy]; [auto|].
  destruct (N.eqb_spec (N_of_ascii x) (N_of_ascii y)) as [Exy|Exy].
  - apply N_of_ascii_inj in Exy. subst y.
    rewrite N.ltb_irrefl, N.eqb_refl. destruct (IH b) as [H|[->|H]]; auto.
  - right; right. destruct (N.ltb_spec (N_of_ascii y) (N_of_ascii x)); [reflexivity|lia].
Qed.

(** ** Decimal texts read independently *)
From Verif Require Import Str_Spec.

Lemma digit_of_dec : forall c, digit_of c <> None <-> dec_digit c.
Proof.
  intros c. unfold dec_digit.
  destruct c as [[] [] [] [] [] [] [] []]; cbn; split; intros H;
    try (exfalso; apply H; reflexivity); try discriminate; try lia.
Qed.

Definition uval_acc : Decimal.uint -> N -> N :=
  fix go u acc := match u with
  | Nil => acc
  | D0 u => go u (10 * acc)%N | D1 u => go u (1 + 10 * acc)%N | D2 u => go u (2 + 10 * acc)%N
  | D3 u => go u (3 + 10 * acc)%N | D4 u => go u (4 + 10 * acc)%N | D5 u => go u (5 + 10 * acc)%N
  | D6 u => go u (6 + 10 * acc)%N | D7 u => go u (7 + 10 * acc)%N | D8 u => go u (8 + 10 * acc)%N
  | D9 u => go u (9 + 10 * acc)%N
  end.

Lemma of_lu_revapp : forall u v,
  DecimalPos.Unsigned.of_lu (Decimal.revapp u v) = uval_acc u (DecimalPos.Unsigned.of_lu v).
Proof.
  induction u as [|u IH|u IH|u IH|u IH|u IH|u IH|u IH|u IH|u IH|u IH]; intros v;
    [reflexivity|cbn [Decimal.revapp uval_acc]; rewrite IH; reflexivity ..].
Qed.

Lemma of_uint_uval : forall u, N.of_uint u = uval_acc u 0.
Proof.
  intros u. unfold N.of_uint. rewrite DecimalPos.Unsigned.of_uint_alt.
  unfold Decimal.rev. rewrite of_lu_revapp. reflexivity.
Qed.

Lemma str_to_uint_value : forall s u acc, str_to_uint s = Some u ->
  uval_acc u acc = fold_left (fun n c => 10 * n + (N_of_ascii c - 48))%N s acc.
Proof.
  induction s as [|c s IH]; intros u acc H; cbn [str_to_uint] in H.
  - injection H as <-. reflexivity.
  - destruct (digit_of c) as [d|] eqn:Ed; [|discriminate].
    destruct (str_to_uint s) as [u'|]; [|discriminate]. injection H as <-.
    cbn [fold_left]. rewrite <- (IH u' _ eq_refl).
    destruct c as [[] [] [] [] [] [] [] []]; cbn [digit_of] in Ed; try discriminate;
      injection Ed as <-; cbn [uval_acc]; f_equal;
      match goal with |- context [N_of_ascii ?a] =>
        let v := eval vm_compute in (N_of_ascii a) in change (N_of_ascii a) with v end; lia.
Qed.

Lemma str_to_uint_some : forall s, (exists u, str_to_uint s = Some u) <-> Forall dec_digit s.
Proof.
  induction s as [|c s IH]; cbn [str_to_uint].
  - split; [constructor|eauto].
  - split.
    + intros [u H]. destruct (digit_of c) as [d|] eqn:Ed; [|discriminate].
      destruct (str_to_uint s) as [u'|] eqn:Es; [|discriminate].
      constructor; [apply digit_of_dec; congruence|apply IH; eauto].
    + intros H. inversion H as [|? ? Hc Hs]; subst. apply digit_of_dec in Hc.
      destruct (digit_of c) as [d|]; [|congruence]. apply IH in Hs as [u ->]. eauto.
Qed.

Lemma parse_digits_iff : forall s n, parse_digits s = Some n <-> dec_text s n.
Proof.
  intros s n. unfold parse_digits, dec_text, dec_value.
  destruct s as [|c s]; [split; [discriminate|intros [H _]; congruence]|].
  destruct (str_to_uint (c :: s)) as [u|] eqn:Eu.
  - rewrite <- (str_to_uint_value _ u 0%N Eu), of_uint_uval. split.
    + intros [= <-]. split; [discriminate|]. split; [apply str_to_uint_some; eauto|reflexivity].
    + intros [_ [_ <-]]. reflexivity.
  - split; [discriminate|]. intros [_ [HF _]]. apply str_to_uint_some in HF as [u Hu]. congruence.
Qed.

Lemma dec_digit_not_sign : forall c, dec_digit c -> c <> "-"%char /\ c <> "+"%char.
Proof. intros c H. split; intros ->; unfold dec_digit in H; cbn in H; lia. Qed.

(** [atoi] on a text without minus sign. *)
Lemma atoi_nonneg_iff : forall s z, ~ In "-"%char s ->
  (atoi s = Some z <-> (0 <= z <= int64_max)%Z /\ plus_dec_text s (Z.to_N z)).
Proof.
  intros s z Hm. unfold atoi, plus_dec_text.
  assert (Hbound : forall n : N,
    (if (int64_min <=? Z.of_N n)%Z && (Z.of_N n <=? int64_max)%Z then Some (Z.of_N n) else None) = Some z
    <-> (0 <= z <= int64_max)%Z /\ n = Z.to_N z).
  { intros n. assert ((int64_min <=? Z.of_N n)%Z = true) as -> by (apply Z.leb_le; unfold int64_min; lia).
    cbn [andb]. destruct (Z.leb_spec (Z.of_N n) int64_max).
    - split; [intros [= <-]; rewrite N2Z.id; lia|]. intros [Hz ->]. rewrite Z2N.id by lia. reflexivity.
    - split; [discriminate|]. intros [Hz ->]. rewrite Z2N.id in H by lia. lia. }
  destruct s as [|c r].
  - cbn. split; [discriminate|]. intros [_ [[H _]|[r [H _]]]]; congruence.
  - destruct (ascii_dec c "-"%char) as [->|Hc]; [exfalso; apply Hm; left; reflexivity|].
    destruct (ascii_dec c "+"%char) as [->|Hp].
    + destruct (parse_digits r) as [n|] eqn:Er.
      * rewrite Hbound. apply parse_digits_iff in Er. split.
        -- intros [Hz ->]. split; [exact Hz|]. right. eauto.
        -- intros [Hz [[_ [HF _]]|[r' [Hr' Ht]]]].
           ++ inversion HF as [|? ? Hd _]; subst. apply dec_digit_not_sign in Hd. tauto.
           ++ injection Hr' as <-. split; [exact Hz|]. destruct Er as [_ [_ <-]], Ht as [_ [_ <-]]. reflexivity.
      * split; [discriminate|]. intros [Hz [[_ [HF _]]|[r' [Hr' Ht]]]].
        -- inversion HF as [|? ? Hd _]; subst. apply dec_digit_not_sign in Hd. tauto.
        -- injection Hr' as <-. apply parse_digits_iff in Ht. congruence.
    + assert (Hno : forall X Y Z : option Z, match c with "-"%char => X | "+"%char => Y | _ => Z end = Z).
      { intros X Y Z'. destruct c as [[] [] [] [] [] [] [] []]; try reflexivity; congruence. }
      match goal with |- match ?m with _ => _ end = _ <-> _ =>
        assert (Em : m = match parse_digits (c :: r) with Some n => Some (Z.of_N n) | None => None end)
      end.
      { destruct c as [[] [] [] [] [] [] [] []]; try reflexivity; congruence. }
      rewrite Em. destruct (parse_digits (c :: r)) as [n|] eqn:Er.
      * rewrite Hbound. apply parse_digits_iff in Er. split.
        -- intros [Hz ->]. split; [exact Hz|]. left. exact Er.
        -- intros [Hz [Ht|[r' [Hr' _]]]]; [|congruence]. split; [exact Hz|].
           destruct Er as [_ [_ <-]], Ht as [_ [_ <-]]. reflexivity.
      * split; [discriminate|]. intros [Hz [Ht|[r' [Hr' _]]]]; [|congruence].
        apply parse_digits_iff in Ht. congruence.
Qed.
