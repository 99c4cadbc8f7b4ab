From Verif Require Import ListX Str_Spec Str_Proofs Util_Model Util_Spec.
From Coq Require Import ZifyBool ZifyNat ZifyN.
Ltac Zify.zify_post_hook ::= Z.div_mod_to_equations.
Local Open Scope Z_scope.

(** ** Data sizes *)

Lemma is_digit_b_iff : forall c, is_digit_b c = true <-> dec_digit c.
Proof. intros c. unfold is_digit_b, dec_digit. rewrite andb_true_iff, !N.leb_le. tauto. Qed.

Lemma span_digits_spec : forall s d r, span_digits s = (d, r) ->
  s = d ++ r /\ Forall dec_digit d /\ (forall c r', r = c :: r' -> ~ dec_digit c).
Proof.
  induction s as [|c s IH]; cbn; intros d r H.
  - injection H as <- <-. repeat split; [constructor|]. intros c r' E; discriminate.
  - destruct (is_digit_b c) eqn:Ec.
    + destruct (span_digits s) as [d' r'] eqn:Es. injection H as <- <-.
      destruct (IH d' r' eq_refl) as [-> [HF Hr]]. repeat split; [|exact Hr].
      constructor; [apply is_digit_b_iff; exact Ec|exact HF].
    + injection H as <- <-. repeat split; [constructor|]. intros c' r' [= <- <-] Hd.
      apply is_digit_b_iff in Hd. congruence.
Qed.

Lemma span_digits_app : forall d r, Forall dec_digit d ->
  (forall c r', r = c :: r' -> ~ dec_digit c) -> span_digits (d ++ r) = (d, r).
Proof.
  induction d as [|c d IH]; cbn; intros r HF Hr.
  - destruct r as [|c r]; [reflexivity|]. cbn.
    destruct (is_digit_b c) eqn:E; [|reflexivity]. apply is_digit_b_iff in E. exfalso. eapply Hr; eauto.
  - inversion HF as [|? ? Hc HF']; subst. apply is_digit_b_iff in Hc. rewrite Hc, IH by assumption. reflexivity.
Qed.

Lemma lookup_unit_units : forall u v, lookup_unit u units = Some v <-> u <> [] /\ In (u, v) size_units.
Proof.
  intros u v. split.
  - unfold units, size_units. cbn [lookup_unit]. intros E.
    repeat match type of E with context [str_eqb ?a u] =>
      destruct (str_eqb_spec a u) as [<-|?];
        [injection E as <-; split; [discriminate|cbn [In]; auto 10]|] end.
    discriminate.
  - intros [Hne Hin]. unfold size_units in Hin. cbn [In] in Hin.
    repeat match goal with H : _ \/ _ |- _ => destruct H as [H|H] end; try (exfalso; assumption);
      pose proof (f_equal fst Hin) as Hu; pose proof (f_equal snd Hin) as Hv; cbn [fst snd] in Hu, Hv;
      subst u v; [congruence|reflexivity..].
Qed.

Lemma size_unit_not_digit : forall u k, In (u, k) size_units -> forall c r, u = c :: r -> ~ dec_digit c.
Proof.
  intros u k Hin c r ->. unfold size_units in Hin. cbn [In] in Hin.
  repeat match goal with H : _ \/ _ |- _ => destruct H as [H|H] end; try (exfalso; assumption);
    pose proof (f_equal fst Hin) as Hu; cbn [fst s2l list_ascii_of_string] in Hu; try discriminate Hu;
    injection Hu as <- _; unfold dec_digit; vm_compute; intuition discriminate.
Qed.

Lemma digits_no_minus : forall d, Forall dec_digit d -> ~ In "-"%char d.
Proof.
  intros d HF Hin. rewrite Forall_forall in HF. apply HF in Hin. apply dec_digit_not_sign in Hin. tauto.
Qed.

Lemma atoi_digits : forall d z, Forall dec_digit d ->
  (atoi d = Some z <-> 0 <= z <= int64_max /\ dec_text d (Z.to_N z)).
Proof.
  intros d z HF. rewrite atoi_nonneg_iff by (apply digits_no_minus; exact HF).
  unfold plus_dec_text. split.
  - intros [Hz [Ht|[r [-> Ht]]]]; [auto|].
    inversion HF as [|? ? Hd _]; subst. apply dec_digit_not_sign in Hd. tauto.
  - tauto.
Qed.

Lemma uint64_small : forall z, 0 <= z <= int64_max -> uint64 z = Z.to_N z.
Proof. intros z Hz. unfold uint64. rewrite Z.mod_small; [reflexivity|]. unfold int64_max in Hz. lia. Qed.

Lemma parse_size_iff : forall s r,
  parse_size s = Some r <->
  exists n k, size_text s n k /\ Z.of_N n <= int64_max /\ ~ (k = unit_PB /\ (1024 <= n)%N) /\
              r = ((n * k) mod 2 ^ 64)%N.
Proof.
  intros s r. unfold parse_size.
  destruct (span_digits (to_upper s)) as [d u] eqn:Esp.
  destruct (span_digits_spec _ _ _ Esp) as [Hup [HF Hu]].
  assert (Hdec : forall n k, size_text s n k -> exists u', u' = u /\ dec_text d n /\ In (u', k) size_units).
  { intros n k [d' [u' [Hup' [Ht Hin]]]].
    assert (Hsp' : span_digits (to_upper s) = (d', u')).
    { rewrite Hup'. apply span_digits_app; [apply Ht|]. apply (size_unit_not_digit _ _ Hin). }
    rewrite Esp in Hsp'. injection Hsp' as -> ->. eauto. }
  destruct d as [|c d].
  { split; [discriminate|]. intros [n [k [Hs _]]].
    destruct (Hdec n k Hs) as [u' [_ [[Hne _] _]]]. congruence. }
  remember (c :: d) as dd eqn:Edd.
  assert (Hmk : forall z k, dec_text dd (Z.to_N z) -> In (u, k) size_units -> size_text s (Z.to_N z) k).
  { intros z k Ht Hin. exists dd, u. auto. }
  assert (Hval : forall n m, dec_text dd n -> dec_text dd m -> n = m).
  { intros n m [_ [_ <-]] [_ [_ <-]]. reflexivity. }
  assert (Hsmall : forall z, 0 <= z <= int64_max -> ((Z.to_N z * 1) mod 2 ^ 64 = Z.to_N z)%N).
  { intros z Hz. rewrite N.mul_1_r. apply N.mod_small.
    unfold int64_max in Hz. assert (z < 2 ^ 63) by lia.
    change (2 ^ 64)%N with (Z.to_N (2 ^ 64)). apply Z2N.inj_lt; lia. }
  destruct u as [|cu u].
  - destruct (atoi dd) as [z|] eqn:Ea.
    + apply atoi_digits in Ea as [Hz Ht]; [|exact HF]. rewrite uint64_small by exact Hz. split.
      * intros [= <-]. exists (Z.to_N z), 1%N. split; [apply Hmk; [exact Ht|left; reflexivity]|].
        rewrite Z2N.id by lia. repeat split; [lia|intros [E _]; discriminate E|rewrite Hsmall by exact Hz; reflexivity].
      * intros [n [k [Hs [Hn [_ ->]]]]]. destruct (Hdec n k Hs) as [u' [-> [Ht' Hin]]].
        rewrite (Hval n (Z.to_N z) Ht' Ht).
        assert (k = 1%N) as ->.
        { unfold size_units in Hin. cbn [In] in Hin.
          repeat match goal with H : _ \/ _ |- _ => destruct H as [H|H] end; try (exfalso; assumption);
            vm_compute in Hin; congruence. }
        rewrite Hsmall by exact Hz. reflexivity.
    + split; [discriminate|]. intros [n [k [Hs [Hn _]]]]. destruct (Hdec n k Hs) as [u' [-> [Ht' Hin]]].
      assert (atoi dd = Some (Z.of_N n)); [|congruence].
      apply atoi_digits; [exact HF|]. rewrite N2Z.id. split; [lia|exact Ht'].
  - remember (cu :: u) as uu eqn:Euu.
    destruct (lookup_unit uu units) as [v|] eqn:El.
    + apply lookup_unit_units in El as [Hne Hin].
      destruct (atoi dd) as [z|] eqn:Ea.
      * apply atoi_digits in Ea as [Hz Ht]; [|exact HF]. rewrite uint64_small by exact Hz.
        assert (Hku : forall k, In (uu, k) size_units -> k = v).
        { intros k Hk. assert (lookup_unit uu units = Some k) by (apply lookup_unit_units; auto).
          assert (lookup_unit uu units = Some v) by (apply lookup_unit_units; auto). congruence. }
        unfold is_exceed_limit.
        destruct ((v =? unit_PB)%N && (z >=? 1024)) eqn:Ex.
        -- split; [discriminate|]. intros [n [k [Hs [Hn [Hno _]]]]].
           destruct (Hdec n k Hs) as [u' [-> [Ht' Hin']]].
           apply Hku in Hin'. subst k. rewrite (Hval n (Z.to_N z) Ht' Ht) in Hno.
           exfalso. apply Hno. lia.
        -- split.
           ++ intros [= <-]. exists (Z.to_N z), v. split; [apply Hmk; [exact Ht|exact Hin]|].
              rewrite Z2N.id by lia. repeat split; [lia|lia].
           ++ intros [n [k [Hs [Hn [_ ->]]]]]. destruct (Hdec n k Hs) as [u' [-> [Ht' Hin']]].
              apply Hku in Hin'. subst k. rewrite (Hval n (Z.to_N z) Ht' Ht). reflexivity.
      * split; [discriminate|]. intros [n [k [Hs [Hn _]]]]. destruct (Hdec n k Hs) as [u' [-> [Ht' Hin']]].
        assert (atoi dd = Some (Z.of_N n)); [|congruence].
        apply atoi_digits; [exact HF|]. rewrite N2Z.id. split; [lia|exact Ht'].
    + split; [discriminate|]. intros [n [k [Hs _]]]. destruct (Hdec n k Hs) as [u' [-> [Ht' Hin']]].
      assert (lookup_unit uu units = Some k); [|congruence].
      apply lookup_unit_units. split; [rewrite Euu; discriminate|exact Hin'].
Qed.

Lemma parse_size_exact : forall s n k,
  size_text s n k -> Z.of_N n <= int64_max -> ~ (k = unit_PB /\ (1024 <= n)%N) -> (n * k < 2 ^ 64)%N ->
  parse_size s = Some (n * k)%N.
Proof.
  intros s n k Hs Hn Hp Hlt. apply parse_size_iff. exists n, k.
  rewrite N.mod_small by exact Hlt. auto.
Qed.

(** ** Wildcards *)

Lemma deep_match_star : forall simple p t,
  deep_match simple (rune_star :: p) t = true <-> exists s1 s2, t = s1 ++ s2 /\ deep_match simple p s2 = true.
Proof.
  intros simple p t.
  assert (HF : forall t, deep_match simple (rune_star :: p) t =
    deep_match simple p t || match t with [] => false | _ :: t' => deep_match simple (rune_star :: p) t' end).
  { intros [|x t']; reflexivity. }
  induction t as [|x t IH]; rewrite HF.
  - rewrite orb_false_r. split.
    + intros H. exists [], []. auto.
    + intros [s1 [s2 [E H]]]. symmetry in E. apply app_eq_nil in E as [-> ->]. exact H.
  - rewrite orb_true_iff, IH. split.
    + intros [H|[s1 [s2 [-> H]]]]; [exists [], (x :: t); auto|exists (x :: s1), s2; auto].
    + intros [[|y s1] [s2 [E H]]]; cbn in E.
      * subst s2. auto.
      * injection E as <- ->. eauto.
Qed.

Lemma deep_match_false : forall p t, deep_match false p t = true <-> glob p t.
Proof.
  induction p as [|c p IH]; intros t.
  - cbn. destruct t; split; congruence.
  - cbn [glob]. destruct (N.eqb_spec c 42) as [->|Hc].
    + rewrite (deep_match_star false p t). split; intros [s1 [s2 [E H]]]; exists s1, s2; rewrite ?IH in *; auto.
    + cbn [deep_match]. unfold rune_star, rune_quest.
      destruct (N.eqb_spec c 42); [contradiction|].
      destruct (N.eqb_spec c 63) as [->|Hq].
      * destruct t as [|x t]; [split; [discriminate|intros [x [s' [E _]]]; discriminate]|].
        rewrite IH. split; [intros H; exists x, t; auto|intros [y [s' [[= <- <-] H]]]; exact H].
      * destruct t as [|x t]; [split; [discriminate|intros [s' [E _]]; discriminate]|].
        destruct (N.eqb_spec x c) as [->|Hx].
        -- rewrite IH. split; [intros H; exists t; auto|intros [s' [[= <-] H]]; exact H].
        -- split; [discriminate|]. intros [s' [[= -> _] _]]. congruence.
Qed.

Lemma wild_match_iff : forall p t, wild_match p t = true <-> glob p t.
Proof.
  intros p t. unfold wild_match, wild_match_gen. destruct p as [|c p].
  - cbn. destruct t; split; congruence.
  - destruct (list_eq_dec N.eq_dec (c :: p) [rune_star]) as [E|E].
    + injection E as -> ->. cbn. split; [|reflexivity]. intros _. exists t, []. rewrite app_nil_r. auto.
    + apply deep_match_false.
Qed.

(** What the simple variant really accepts. *)
Lemma deep_match_true : forall p t, deep_match true p t = true <->
  glob p t \/ exists p1 p2, p = p1 ++ rune_quest :: p2 /\ glob p1 t.
Proof.
  induction p as [|c p IH]; intros t.
  - cbn. split.
    + destruct t; [auto|discriminate].
    + intros [->|[p1 [p2 [E _]]]]; [reflexivity|]. destruct p1; discriminate.
  - cbn [glob]. destruct (N.eqb_spec c 42) as [->|Hc].
    + rewrite (deep_match_star true p t). split.
      * intros [s1 [s2 [-> H]]]. apply IH in H as [H|[p1 [p2 [-> H]]]]; [left; exists s1, s2; auto|].
        right. exists (42%N :: p1), p2. split; [reflexivity|]. cbn. exists s1, s2. auto.
      * intros [[s1 [s2 [-> H]]]|[p1 [p2 [E H]]]].
        -- exists s1, s2. split; [reflexivity|]. apply IH. auto.
        -- destruct p1 as [|x p1]; [discriminate|]. injection E as <- ->. cbn in H.
           destruct H as [s1 [s2 [-> H]]]. exists s1, s2. split; [reflexivity|]. apply IH. right. eauto.
    + cbn [deep_match]. unfold rune_star, rune_quest in *.
      destruct (N.eqb_spec c 42); [contradiction|].
      destruct (N.eqb_spec c 63) as [->|Hq].
      * destruct t as [|x t].
        -- split; [|reflexivity]. intros _. right. exists [], p. split; reflexivity.
        -- rewrite IH. split.
           ++ intros [H|[p1 [p2 [-> H]]]]; [left; exists x, t; auto|].
              right. exists (63%N :: p1), p2. split; [reflexivity|]. cbn. exists x, t. auto.
           ++ intros [[y [s' [[= <- <-] H]]]|[p1 [p2 [E H]]]]; [auto|].
              destruct p1 as [|y p1]; [cbn in H; discriminate|]. injection E as <- ->. cbn in H.
              destruct H as [y [s' [[= <- <-] H]]]. right. eauto.
      * destruct t as [|x t].
        -- split; [discriminate|]. intros [[s' [E _]]|[p1 [p2 [E H]]]]; [discriminate|].
           destruct p1 as [|y p1]; [injection E as E _; congruence|]. injection E as <- ->. cbn [glob] in H.
           destruct (N.eqb_spec c 42); [contradiction|]. destruct (N.eqb_spec c 63); [contradiction|].
           destruct H as [s' [E _]]. discriminate.
        -- destruct (N.eqb_spec x c) as [->|Hx].
           ++ rewrite IH. split.
              ** intros [H|[p1 [p2 [-> H]]]]; [left; exists t; auto|].
                 right. exists (c :: p1), p2. split; [reflexivity|]. cbn [glob].
                 destruct (N.eqb_spec c 42); [contradiction|]. destruct (N.eqb_spec c 63); [contradiction|].
                 exists t. auto.
              ** intros [[s' [[= <-] H]]|[p1 [p2 [E H]]]]; [auto|].
                 destruct p1 as [|y p1]; [injection E as E _; congruence|]. injection E as <- ->. cbn [glob] in H.
                 destruct (N.eqb_spec c 42); [contradiction|]. destruct (N.eqb_spec c 63); [contradiction|].
                 destruct H as [s' [[= <-] H]]. right. eauto.
           ++ split; [discriminate|]. intros [[s' [[= -> _] _]]|[p1 [p2 [E H]]]]; [congruence|].
              destruct p1 as [|y p1]; [injection E as E _; congruence|]. injection E as <- ->. cbn [glob] in H.
              destruct (N.eqb_spec c 42); [contradiction|]. destruct (N.eqb_spec c 63); [contradiction|].
              destruct H as [s' [[= -> _] _]]. congruence.
Qed.

Lemma wild_match_simple_iff : forall p t, wild_match_simple p t = true <->
  glob p t \/ exists p1 p2, p = p1 ++ rune_quest :: p2 /\ glob p1 t.
Proof.
  intros p t. unfold wild_match_simple, wild_match_gen. destruct p as [|c p].
  - rewrite <- deep_match_true. cbn. destruct t; reflexivity.
  - destruct (list_eq_dec N.eq_dec (c :: p) [rune_star]) as [E|E].
    + injection E as -> ->. split; [|reflexivity]. intros _. left. cbn. exists t, []. rewrite app_nil_r. auto.
    + apply deep_match_true.
Qed.

Lemma wild_simple_doc_false : exists pattern name, wild_match_simple pattern name = true /\
  ~ glob pattern name /\ ~ (exists p1, pattern = p1 ++ [rune_quest] /\ glob p1 name).
Proof.
  exists [97; 63; 98]%N, [97]%N. split; [reflexivity|]. split.
  - intros H. apply wild_match_iff in H. discriminate H.
  - intros [p1 [E _]]. apply (f_equal (@rev N)) in E. rewrite rev_app_distr in E. discriminate E.
Qed.

(** ** Paging *)

Lemma paging_page : forall (A : Type) (l : list A) (size k : nat), (1 <= k)%nat -> (1 <= size)%nat ->
  (((k - 1) * size < List.length l)%nat ->
     exists a b, paging_offset (Z.of_nat k) (Z.of_nat size) (Z.of_nat (List.length l)) = (a, b, true) /\
                 slice l a b = Some (page_of l size k)) /\
  ((List.length l <= (k - 1) * size)%nat ->
     paging_offset (Z.of_nat k) (Z.of_nat size) (Z.of_nat (List.length l)) = (0, 0, false) /\
     page_of l size k = []).
Proof.
  intros A l size k Hk Hs. unfold paging_offset, page_of.
  destruct (Z.eqb_spec (Z.of_nat k) 0); [lia|].
  assert (Eo : (Z.of_nat k - 1) * Z.of_nat size = Z.of_nat ((k - 1) * size)) by nia.
  rewrite Eo. set (o := ((k - 1) * size)%nat) in *.
  destruct (Z.geb_spec (Z.of_nat o) (Z.of_nat (List.length l))) as [Hge|Hlt].
  - split; [intros; lia|]. intros _. split; [reflexivity|]. rewrite skipn_all2 by lia. apply firstn_nil.
  - split; [|intros; lia]. intros _.
    exists (Z.of_nat o), (if Z.of_nat o + Z.of_nat size >? Z.of_nat (List.length l) then Z.of_nat (List.length l) else Z.of_nat o + Z.of_nat size).
    split; [reflexivity|]. unfold slice.
    destruct (Z.gtb_spec (Z.of_nat o + Z.of_nat size) (Z.of_nat (List.length l))) as [Hg|Hg].
    + assert ((0 <=? Z.of_nat o) && (Z.of_nat o <=? Z.of_nat (List.length l)) && (Z.of_nat (List.length l) <=? Z.of_nat (List.length l)) = true) as -> by lia.
      rewrite Nat2Z.id. f_equal. rewrite (firstn_all2 (n := size)) by (rewrite skipn_length; lia).
      apply firstn_all2. rewrite skipn_length. lia.
    + assert ((0 <=? Z.of_nat o) && (Z.of_nat o <=? Z.of_nat o + Z.of_nat size) && (Z.of_nat o + Z.of_nat size <=? Z.of_nat (List.length l)) = true) as -> by lia.
      rewrite Nat2Z.id. f_equal. f_equal. lia.
Qed.

Lemma pages_concat_from : forall (A : Type) (size n : nat) (l : list A), (1 <= size)%nat ->
  List.concat (map (page_of l size) (seq 1 n)) = firstn (n * size) l.
Proof.
  intros A size n l Hs. induction n as [|n IH]; [reflexivity|].
  rewrite seq_S, map_app, concat_app, IH. cbn [map List.concat]. rewrite app_nil_r.
  unfold page_of. replace (1 + n - 1)%nat with n by lia.
  replace (S n * size)%nat with (n * size + size)%nat by lia.
  clear IH. generalize (n * size)%nat as m. intros m. revert l. induction m as [|m IHm]; intros l; [reflexivity|].
  destruct l as [|x l]; [cbn; rewrite firstn_nil; reflexivity|]. cbn. f_equal. apply IHm.
Qed.

Lemma pages_concat : forall (A : Type) (size n : nat) (l : list A), (1 <= size)%nat ->
  (List.length l <= n * size)%nat ->
  List.concat (map (page_of l size) (seq 1 n)) = l.
Proof.
  intros A size n l Hs Hn. rewrite pages_concat_from by exact Hs. apply firstn_all2. exact Hn.
Qed.

(** ** Slices *)

Lemma copy_double_length : forall (A : Type) j (arr : list A), (j <= List.length arr)%nat ->
  List.length (copy_double j arr) = List.length arr.
Proof.
  intros A j arr Hj. unfold copy_double.
  rewrite !app_length, !firstn_length, skipn_length. lia.
Qed.

(** Periodic prefix invariant of the doubling loop. *)
Definition periodic {A} (pat : list A) (j : nat) (arr : list A) : Prop :=
  forall i, (i < j)%nat -> (i < List.length arr)%nat ->
    nth_error arr i = nth_error pat (i mod (List.length pat)).

Lemma copy_double_nth : forall (A : Type) j (arr : list A) i, (j <= List.length arr)%nat ->
  (i < 2 * j)%nat -> (i < List.length arr)%nat ->
  nth_error (copy_double j arr) i = nth_error arr (if (i <? j)%nat then i else i - j).
Proof.
  intros A j arr i Hj H2 Hi. unfold copy_double.
  assert (L1 : List.length (firstn j arr) = j) by (rewrite firstn_length; lia).
  destruct (Nat.ltb_spec i j) as [Hlt|Hge].
  - rewrite nth_error_app1 by lia. apply nth_error_firstn. exact Hlt.
  - rewrite nth_error_app2 by lia. rewrite L1.
    rewrite nth_error_app1 by (rewrite !firstn_length; lia).
    rewrite !nth_error_firstn by lia. reflexivity.
Qed.

Lemma fill_loop_spec : forall (A : Type) (pat : list A) fuel j (arr : list A) m,
  (1 <= List.length pat)%nat -> j = (List.length pat * m)%nat -> (1 <= m)%nat ->
  periodic pat j arr -> (List.length arr < j + S fuel)%nat ->
  exists r, fill_loop fuel j arr = Some r /\ List.length r = List.length arr /\
            periodic pat (List.length arr) r.
Proof.
  intros A pat fuel. induction fuel as [|fuel IH]; intros j arr m Hp Hj Hm Hper Hfu; cbn [fill_loop].
  - destruct (Nat.ltb_spec j (List.length arr)); [lia|]. exists arr. repeat split.
    intros i Hi Hi'. apply Hper; lia.
  - destruct (Nat.ltb_spec j (List.length arr)) as [Hlt|Hge].
    + pose proof (copy_double_length A j arr ltac:(lia)) as HL.
      destruct (IH (j * 2)%nat (copy_double j arr) (m * 2)%nat) as [r [H1 [H2 H3]]]; try lia.
      * intros i Hi Hi'. rewrite HL in Hi'. rewrite copy_double_nth by lia.
        destruct (Nat.ltb_spec i j) as [Hij|Hij]; [apply Hper; lia|].
        rewrite Hper by lia. f_equal.
        assert (E : i = (i - j + m * List.length pat)%nat) by lia.
        rewrite E at 2. rewrite Nat.mod_add by lia. reflexivity.
      * exists r. rewrite H1, H2, HL in *. auto.
    + exists arr. repeat split. intros i Hi Hi'. apply Hper; lia.
Qed.

Lemma fill_spec : forall (A : Type) (arr : list A) v, fill arr v = Some (repeat v (List.length arr)).
Proof.
  intros A [|x arr] v; [reflexivity|]. unfold fill.
  destruct (fill_loop_spec A [v] (List.length (x :: arr)) 1 (v :: arr) 1) as [r [H1 [H2 H3]]];
    [cbn; lia|cbn; lia|lia| |cbn; lia|].
  - intros [|i] Hi _; [reflexivity|lia].
  - rewrite H1. f_equal. apply list_ext. intros i.
    destruct (Nat.ltb_spec i (List.length (v :: arr))) as [Hlt|Hge].
    + rewrite H3 by lia. rewrite nth_error_repeat by (cbn in *; lia).
      cbn [List.length]. rewrite Nat.mod_1_r. reflexivity.
    + rewrite (proj2 (nth_error_None r i)) by lia. symmetry. apply nth_error_None.
      rewrite repeat_length. cbn in *. lia.
Qed.

Lemma fill_pattern_spec : forall (A : Type) (arr pat : list A), pat <> [] -> arr <> [] ->
  exists r, fill_pattern arr pat = Some r /\ List.length r = List.length arr /\
    forall i, (i < List.length arr)%nat -> nth_error r i = nth_error pat (i mod List.length pat).
Proof.
  intros A arr pat Hp Ha. unfold fill_pattern.
  destruct arr as [|x arr]; [congruence|]. destruct pat as [|y pat]; [congruence|].
  remember (x :: arr) as ar eqn:Ear. remember (y :: pat) as pt eqn:Ept.
  assert (Hlp : (1 <= List.length pt)%nat) by (rewrite Ept; cbn; lia).
  assert (HL : List.length (copy_prefix ar pt) = List.length ar).
  { unfold copy_prefix. rewrite app_length, firstn_length, skipn_length. lia. }
  destruct (fill_loop_spec A pt (List.length ar) (List.length pt) (copy_prefix ar pt) 1) as [r [H1 [H2 H3]]];
    [exact Hlp|lia|lia| |rewrite HL; lia|].
  - intros i Hi Hi'. rewrite HL in Hi'. unfold copy_prefix.
    rewrite nth_error_app1 by (rewrite firstn_length; lia).
    rewrite nth_error_firstn by lia. rewrite Nat.mod_small by lia. reflexivity.
  - exists r. rewrite H1, H2, HL. repeat split. intros i Hi. apply H3; rewrite ?HL, ?H2, ?HL; lia.
Qed.

Lemma safe_chunk_total : forall (A : Type) (arr : list A) s e, let n := Z.of_nat (List.length arr) in
  0 < n -> - n < s -> - n < e ->
  let i := if s <? 0 then n + s else Z.min s (n - 1) in
  let j := if e <? 0 then n + e else Z.min e (n - 1) in
  safe_chunk arr s e =
    Some (firstn (Z.to_nat (Z.max i j + 1 - Z.min i j)) (skipn (Z.to_nat (Z.min i j)) arr)).
Proof.
  intros A arr s e n Hn Hs He. cbv zeta. unfold safe_chunk. fold n.
  assert (Hidx : forall x, - n < x -> safe_index x n = Some (if x <? 0 then n + x else Z.min x (n - 1))).
  { intros x Hx. unfold safe_index, logic_mod. destruct (Z.ltb_spec x 0).
    - destruct (Z.eqb_spec n 0); [lia|]. cbn [orb]. f_equal.
      rewrite <- (Z.opp_involutive x), Z.rem_opp_l, Z.rem_small by lia. lia.
    - destruct (Z.geb_spec x n); f_equal; lia. }
  rewrite (Hidx s Hs), (Hidx e He).
  set (i := if s <? 0 then n + s else Z.min s (n - 1)).
  set (j := if e <? 0 then n + e else Z.min e (n - 1)).
  assert (Hi : 0 <= i < n) by (unfold i; destruct (Z.ltb_spec s 0); lia).
  assert (Hj : 0 <= j < n) by (unfold j; destruct (Z.ltb_spec e 0); lia).
  unfold slice. fold n. destruct (Z.gtb_spec i j).
  - rewrite Z.max_l, Z.min_r by lia.
    assert ((0 <=? j) && (j <=? i + 1) && (i + 1 <=? n) = true) as -> by lia. reflexivity.
  - rewrite Z.max_r, Z.min_l by lia.
    assert ((0 <=? i) && (i <=? j + 1) && (j + 1 <=? n) = true) as -> by lia. reflexivity.
Qed.

(** ** Range headers *)

Lemma to_int64_print : forall z, 0 <= z <= int64_max -> to_int64 (print_Z z) = z.
Proof.
  intros z Hz. rewrite print_Z_nonneg by lia. unfold to_int64.
  destruct (print_N (Z.to_N z)) as [|c s] eqn:E; [exfalso; eapply print_N_nonempty; eassumption|].
  assert (Hc : dec_digit c).
  { apply digit_of_dec. pose proof (print_N_digits (Z.to_N z)) as F. rewrite E in F. inversion F; assumption. }
  apply dec_digit_not_sign in Hc as [H1 H2].
  assert (Hp : parse_digits (c :: s) = Some (Z.to_N z)) by (rewrite <- E; apply parse_print_N).
  match goal with |- match ?m with _ => _ end = _ =>
    assert (Em : m = Some z)
  end.
  { rewrite Hp, Z2N.id by lia.
    destruct c as [[] [] [] [] [] [] [] []]; try reflexivity; congruence. }
  rewrite Em. unfold int64_min, int64_max in *. lia.
Qed.

Definition no_space (s : str) : Prop := forall c, In c s -> is_space c = false.

Lemma trim_left_id : forall s, no_space s -> trim_left s = s.
Proof. intros [|c s] H; [reflexivity|]. cbn. rewrite (H c (or_introl eq_refl)). reflexivity. Qed.

Lemma trim_space_id : forall s, no_space s -> trim_space s = s.
Proof.
  intros s H. unfold trim_space. rewrite (trim_left_id s H).
  rewrite trim_left_id; [apply rev_involutive|]. intros c Hc. apply H. apply in_rev. exact Hc.
Qed.

Lemma print_N_no_space : forall n, no_space (print_N n).
Proof.
  intros n c Hc. pose proof (print_N_digits n) as F. rewrite Forall_forall in F. apply F in Hc.
  unfold is_digit in Hc. apply digit_of_dec in Hc. unfold dec_digit in Hc. unfold is_space. cbv zeta. lia.
Qed.

Lemma range_tuple_print : forall a b, 0 <= a <= int64_max -> 0 <= b <= int64_max ->
  range_tuple (print_Z a ++ "-"%char :: print_Z b) = (a, b).
Proof.
  intros a b Ha Hb. unfold range_tuple.
  rewrite trim_space_id.
  2:{ intros c Hc. rewrite !print_Z_nonneg in Hc by lia. apply in_app_or in Hc as [Hc|[<-|Hc]];
      [eapply print_N_no_space; eassumption|reflexivity|eapply print_N_no_space; eassumption]. }
  rewrite split_on_app by (rewrite print_Z_nonneg by lia; apply print_N_notin; reflexivity).
  rewrite split_on_notin by (rewrite print_Z_nonneg by lia; apply print_N_notin; reflexivity).
  rewrite !to_int64_print by assumption. reflexivity.
Qed.

Lemma range_item_no_comma : forall a b, 0 <= a -> 0 <= b -> ~ In ","%char (print_Z a ++ "-"%char :: print_Z b).
Proof.
  intros a b Ha Hb Hin. rewrite !print_Z_nonneg in Hin by lia.
  apply in_app_or in Hin as [H|[H|H]]; [|discriminate|]; eapply print_N_notin; try exact H; reflexivity.
Qed.

Lemma range_convert_print : forall l, l <> [] ->
  (forall a b, In (a, b) l -> 0 <= a <= int64_max /\ 0 <= b <= int64_max) ->
  range_convert (s2l "bytes=" ++ range_header_text l) = Some l.
Proof.
  intros l Hne H. unfold range_convert.
  change (s2l "bytes=" ++ range_header_text l) with
    ("b"%char :: "y"%char :: "t"%char :: "e"%char :: "s"%char :: "="%char :: range_header_text l).
  assert (Hc : cut_str (s2l "bytes=") ("b"%char :: "y"%char :: "t"%char :: "e"%char :: "s"%char :: "="%char :: range_header_text l) = Some (range_header_text l)).
  { reflexivity. }
  rewrite Hc. f_equal.
  induction l as [|[a b] l IH]; [congruence|].
  destruct (H a b (or_introl eq_refl)) as [Ha Hb].
  destruct l as [|p l].
  - cbn [range_header_text]. rewrite split_on_notin by (apply range_item_no_comma; lia).
    cbn [map]. rewrite range_tuple_print by assumption. reflexivity.
  - change (range_header_text ((a, b) :: p :: l)) with
      ((print_Z a ++ "-"%char :: print_Z b) ++ ","%char :: range_header_text (p :: l)).
    rewrite split_on_app by (apply range_item_no_comma; lia).
    cbn [map]. rewrite range_tuple_print by assumption. f_equal.
    apply IH; [discriminate| |reflexivity]. intros a' b' Hin. apply H. right. exact Hin.
Qed.

(** ** Extremal index *)

Lemma extremal_loop_spec : forall (A : Type) (fn : A -> A -> bool) (all : list A),
  (forall a b c, fn a b = false -> fn b c = false -> fn a c = false) ->
  (forall a b, fn a b = true -> fn b a = false) ->
  (forall a, fn a a = false) ->
  forall l i ex, skipn i all = l -> (ex < List.length all)%nat ->
  (forall k x e, (k < i)%nat -> nth_error all k = Some x -> nth_error all ex = Some e -> fn e x = false) ->
  let r := extremal_loop fn all i ex l in
  (r < List.length all)%nat /\
  forall k x e, nth_error all k = Some x -> nth_error all r = Some e -> fn e x = false.
Proof.
  intros A fn all Htr Has Hir l. induction l as [|x l IH]; intros i ex Hsk Hex Hinv; cbn [extremal_loop].
  - cbv zeta. split; [exact Hex|]. intros k x e Hk He. eapply Hinv; try eassumption.
    assert ((k < List.length all)%nat) by (apply nth_error_Some; congruence).
    assert (List.length (skipn i all) = 0%nat) by (rewrite Hsk; reflexivity). rewrite skipn_length in H0. lia.
  - destruct (nth_error all ex) as [e|] eqn:Ee; [|apply nth_error_None in Ee; lia].
    assert (Hx : nth_error all i = Some x).
    { replace i with (i + 0)%nat by lia. rewrite <- nth_error_skipn, Hsk. reflexivity. }
    assert (Hi : (i < List.length all)%nat) by (apply nth_error_Some; congruence).
    apply IH.
    + replace (S i) with (i + 1)%nat by lia. rewrite <- skipn_add, Hsk. reflexivity.
    + destruct (fn e x); assumption.
    + intros k y e' Hk Hy He'. destruct (fn e x) eqn:Ef.
      * rewrite Hx in He'. injection He' as <-.
        destruct (Nat.eq_dec k i) as [->|Hne]; [rewrite Hx in Hy; injection Hy as <-; apply Hir|].
        eapply Htr; [apply Has; exact Ef|]. eapply (Hinv k y e); try eassumption; [lia|reflexivity].
      * rewrite Ee in He'. injection He' as <-.
        destruct (Nat.eq_dec k i) as [->|Hne]; [rewrite Hx in Hy; injection Hy as <-; exact Ef|].
        eapply (Hinv k y e); try eassumption; [lia|reflexivity].
Qed.

Lemma extremal_index_spec : forall (A : Type) (fn : A -> A -> bool) (arr : list A),
  (forall a b c, fn a b = false -> fn b c = false -> fn a c = false) ->
  (forall a b, fn a b = true -> fn b a = false) ->
  (forall a, fn a a = false) -> arr <> [] ->
  exists e, nth_error arr (extremal_index fn arr) = Some e /\ forall x, In x arr -> fn e x = false.
Proof.
  intros A fn arr Htr Has Hir Hne. unfold extremal_index.
  destruct (extremal_loop_spec A fn arr Htr Has Hir arr 0 0) as [H1 H2]; [reflexivity| |intros; lia|].
  - destruct arr; [congruence|cbn; lia].
  - destruct (nth_error arr (extremal_loop fn arr 0 0 arr)) as [e|] eqn:Ee; [|apply nth_error_None in Ee; lia].
    exists e. split; [reflexivity|]. intros x Hx. apply In_nth_error in Hx as [k Hk]. eapply H2; eauto.
Qed.
