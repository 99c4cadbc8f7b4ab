(* Proofs about MessagePack records. *)
From Coq Require Import List Ascii String NArith ZArith Bool Lia Permutation.
From Verif Require Import Str_Model Pack_Model Pack_Spec.
Import ListNotations.
Local Open Scope list_scope.
Local Open Scope N_scope.

(* --- bytes and numbers --- *)

Lemma ord_chr : forall n, n < 256 -> ord (chr n) = n.
Proof. intros n H. exact (N_ascii_embedding n H). Qed.

Lemma chr_ord : forall c, chr (ord c) = c.
Proof. exact ascii_N_embedding. Qed.

Lemma ord_lt : forall c, ord c < 256.
Proof. intros [[] [] [] [] [] [] [] []]; vm_compute; reflexivity. Qed.

Lemma len_nil : forall A, len (@nil A) = 0.
Proof. reflexivity. Qed.

Lemma len_cons : forall A (x : A) l, len (x :: l) = 1 + len l.
Proof. intros. unfold len. cbn [List.length]. lia. Qed.

Lemma len_app : forall A (a b : list A), len (a ++ b) = len a + len b.
Proof. intros. unfold len. rewrite app_length. lia. Qed.

Lemma un_be_from : forall b a, fold_left (fun a c => a * 256 + ord c) b a
  = a * 2 ^ (8 * N.of_nat (List.length b)) + number b.
Proof.
  induction b as [|c b IH]; intros a.
  - cbn [fold_left number List.length]. change (8 * N.of_nat 0) with 0. rewrite N.pow_0_r. lia.
  - cbn [fold_left number List.length]. rewrite IH. unfold ord.
    replace (8 * N.of_nat (Datatypes.S (List.length b))) with (8 + 8 * N.of_nat (List.length b)) by lia.
    rewrite N.pow_add_r. change (2 ^ 8) with 256. lia.
Qed.

Lemma un_be_number : forall b, un_be b = number b.
Proof. intros b. unfold un_be. rewrite un_be_from. lia. Qed.

Lemma number_lt : forall b, number b < 2 ^ (8 * N.of_nat (List.length b)).
Proof.
  induction b as [|c b IH].
  - cbn. lia.
  - cbn [number List.length]. pose proof (ord_lt c) as H. unfold ord in H.
    replace (8 * N.of_nat (Datatypes.S (List.length b))) with (8 + 8 * N.of_nat (List.length b)) by lia.
    rewrite N.pow_add_r. change (2 ^ 8) with 256. nia.
Qed.

Lemma be_length : forall k n, List.length (be k n) = k.
Proof. induction k; intros; cbn; auto. Qed.

Lemma number_be : forall k n, number (be k n) = n mod 2 ^ (8 * N.of_nat k).
Proof.
  induction k as [|k IH]; intros n.
  - cbn [be number]. change (8 * N.of_nat 0) with 0. rewrite N.pow_0_r, N.mod_1_r. reflexivity.
  - cbn [be number]. rewrite IH, be_length.
    assert (P : 256 ^ N.of_nat k = 2 ^ (8 * N.of_nat k)).
    { rewrite N.pow_mul_r. reflexivity. }
    change (N_of_ascii (chr ?x)) with (ord (chr x)).
    rewrite ord_chr by (apply N.mod_lt; discriminate). rewrite P.
    replace (8 * N.of_nat (Datatypes.S k)) with (8 * N.of_nat k + 8) by lia.
    rewrite N.pow_add_r. change (2 ^ 8) with 256.
    rewrite N.mod_mul_r; [|apply N.pow_nonzero; discriminate|discriminate]. lia.
Qed.

Lemma take_app : forall p r n, len p = n -> take n (p ++ r) = Some (p, r).
Proof.
  intros p r n <-. unfold take. rewrite len_app.
  destruct (len p + len r <? len p) eqn:E; [apply N.ltb_lt in E; lia|].
  unfold len. rewrite Nat2N.id. rewrite firstn_app, skipn_app, firstn_all, skipn_all, Nat.sub_diag.
  cbn [firstn skipn app]. rewrite app_nil_r. reflexivity.
Qed.

Lemma take_some : forall n b p r, take n b = Some (p, r) -> b = p ++ r /\ len p = n.
Proof.
  intros n b p r H. unfold take in H. destruct (len b <? n) eqn:E; [discriminate|].
  apply N.ltb_ge in E. injection H as <- <-. split; [symmetry; apply firstn_skipn|].
  unfold len in *. rewrite firstn_length. lia.
Qed.

Lemma word_app : forall p r k, len p = k -> word k (p ++ r) = Some (number p, r).
Proof. intros. unfold word. rewrite (take_app p r k H), un_be_number. reflexivity. Qed.

Lemma word_some : forall k b n r, word k b = Some (n, r) -> exists p, b = p ++ r /\ len p = k /\ n = number p.
Proof.
  intros k b n r H. unfold word in H. destruct (take k b) as [[p q]|] eqn:E; [|discriminate].
  apply take_some in E as [-> L]. injection H as <- <-. exists p. rewrite un_be_number. auto.
Qed.

Lemma signed_two : forall p, List.length p <> O -> signed (len p) (number p) = two p.
Proof.
  intros p NE. unfold signed, two. cbv zeta.
  set (n := number p). unfold len.
  replace (Z.of_N (8 * N.of_nat (List.length p))) with (8 * Z.of_nat (List.length p))%Z by lia.
  assert (P : Z.of_N (2 ^ (8 * N.of_nat (List.length p) - 1)) = (2 ^ (8 * Z.of_nat (List.length p) - 1))%Z).
  { rewrite N2Z.inj_pow. f_equal. lia. }
  destruct (n <? 2 ^ (8 * N.of_nat (List.length p) - 1)) eqn:E;
    destruct (Z.of_N n <? 2 ^ (8 * Z.of_nat (List.length p) - 1))%Z eqn:F; try reflexivity;
    [apply N.ltb_lt in E; apply Z.ltb_ge in F|apply N.ltb_ge in E; apply Z.ltb_lt in F]; lia.
Qed.

(* --- readers and the values they read --- *)

Definition reads {A} (rd : bytes -> option (A * bytes)) (as_ : value -> option A) : Prop :=
  forall b a r, rd b = Some (a, r) <-> exists x p, b = p ++ r /\ packs x p /\ as_ x = Some a.

Ltac cmp :=
  repeat match goal with
    | H : (?a <? ?b) = true |- _ => apply N.ltb_lt in H
    | H : (?a <? ?b) = false |- _ => apply N.ltb_ge in H
    | H : (?a <=? ?b) = true |- _ => apply N.leb_le in H
    | H : (?a <=? ?b) = false |- _ => apply N.leb_gt in H
    | H : (?a =? ?b) = true |- _ => apply N.eqb_eq in H
    | H : (?a =? ?b) = false |- _ => apply N.eqb_neq in H
    | H : (_ && _)%bool = true |- _ => apply andb_true_iff in H as [? ?]
    | H : (_ && _)%bool = false |- _ => apply andb_false_iff in H
    | H : (?a <? ?b)%Z = true |- _ => apply Z.ltb_lt in H
    | H : (?a <? ?b)%Z = false |- _ => apply Z.ltb_ge in H
    | H : (?a <=? ?b)%Z = true |- _ => apply Z.leb_le in H
    | H : (?a <=? ?b)%Z = false |- _ => apply Z.leb_gt in H
    end.

(* Decide one test of a goal. *)
Ltac ifs :=
  match goal with
  | |- context [if ?c then _ else _] =>
      let E := fresh "E" in destruct c eqn:E; cmp; try lia; try discriminate
  end.

Lemma of_ord : forall c n, ord c = n -> c = chr n.
Proof. intros c n <-. symmetry. apply chr_ord. Qed.

Ltac closed_ord :=
  repeat match goal with
    | |- context [ord (ascii_of_N ?n)] =>
        let v := eval vm_compute in (ord (ascii_of_N n)) in change (ord (ascii_of_N n)) with v
    end.

Ltac closed :=
  closed_ord; cbv zeta;
  repeat match goal with
    | |- context [N.ltb (N.pos ?a) (N.pos ?b)] =>
        let v := eval vm_compute in (N.ltb (N.pos a) (N.pos b)) in change (N.ltb (N.pos a) (N.pos b)) with v
    | |- context [N.leb (N.pos ?a) (N.pos ?b)] =>
        let v := eval vm_compute in (N.leb (N.pos a) (N.pos b)) in change (N.leb (N.pos a) (N.pos b)) with v
    | |- context [N.eqb (N.pos ?a) (N.pos ?b)] =>
        let v := eval vm_compute in (N.eqb (N.pos a) (N.pos b)) in change (N.eqb (N.pos a) (N.pos b)) with v
    end; cbn [andb]; cbv beta iota.

Lemma len_eq : forall (b : bytes) k, List.length b = k -> len b = N.of_nat k.
Proof. intros b k <-. reflexivity. Qed.

Lemma eq_len : forall (b : bytes) k, len b = N.of_nat k -> List.length b = k.
Proof. intros b k H. unfold len in H. lia. Qed.

Lemma reads_bool : reads read_bool as_bool.
Proof.
  intros b a r. split.
  - destruct b as [|c b]; [discriminate|]. cbn [read_bool].
    destruct (ord c =? 194) eqn:E; [|destruct (ord c =? 195) eqn:F; [|discriminate]]; cmp; intros H;
      injection H as <- <-.
    + rewrite (of_ord _ _ E). exists (VBool false), [chr 194]. repeat split; constructor.
    + rewrite (of_ord _ _ F). exists (VBool true), [chr 195]. repeat split; constructor.
  - intros (x & p & -> & P & V). destruct x; try discriminate. injection V as ->.
    inversion P; subst; reflexivity.
Qed.

(* Integers of any width: the whole of them, before any check of a range. *)
Lemma int_bytes_read : forall z p, int_bytes z p -> forall r,
  (z < 2 ^ 63)%Z -> read_int64 (p ++ r) = Some (z, r).
Proof.
  intros z p H r L. destruct H as [n H|n H|k m b I K|k m b I K].
  - cbn [app read_int64]. change (ascii_of_N n) with (chr n). rewrite !ord_chr by lia. ifs. reflexivity.
  - cbn [app read_int64]. change (ascii_of_N n) with (chr n). rewrite !ord_chr by lia. repeat ifs. reflexivity.
  - cbn [In] in I. repeat destruct I as [I|I]; try contradiction; injection I as <- <-;
      cbn [app read_int64]; closed_ord; closed;
      erewrite word_app by (rewrite (len_eq _ _ K); reflexivity); cbv beta iota;
      (destruct (number b <? 2 ^ 63) eqn:E; [reflexivity|]; apply N.ltb_ge in E;
       change (2 ^ 63)%Z with (Z.of_N (2 ^ 63)) in L; lia).
  - cbn [In] in I. repeat destruct I as [I|I]; try contradiction; injection I as <- <-;
      cbn [app read_int64]; closed_ord; closed;
      erewrite word_app by (rewrite (len_eq _ _ K); reflexivity); cbv beta iota; rewrite <- signed_two by lia;
      rewrite (len_eq _ _ K); reflexivity.
Qed.

Lemma read_int64_some : forall b z r, read_int64 b = Some (z, r) ->
  exists p, b = p ++ r /\ int_bytes z p /\ (- 2 ^ 63 <= z < 2 ^ 63)%Z.
Proof.
  intros b z r H. destruct b as [|c b]; [discriminate|]. cbn [read_int64] in H.
  pose proof (ord_lt c) as O.
  destruct (ord c <? 128) eqn:E0; cmp.
  { injection H as <- <-. exists [c]. split; [reflexivity|]. split; [|lia].
    rewrite <- (chr_ord c) at 2. constructor. exact E0. }
  destruct (224 <=? ord c) eqn:E1; cmp.
  { injection H as <- <-. exists [c]. split; [reflexivity|]. split; [|lia].
    rewrite <- (chr_ord c) at 2. constructor. lia. }
  assert (U : forall k m, In (k, m) [(1%nat, 0xcc); (2%nat, 0xcd); (4%nat, 0xce); (8%nat, 0xcf)] -> ord c = m ->
    match word (N.of_nat k) b with
    | None => None
    | Some (n, r) => if n <? 2 ^ 63 then Some (Z.of_N n, r) else None
    end = Some (z, r) -> exists p, c :: b = p ++ r /\ int_bytes z p /\ (- 2 ^ 63 <= z < 2 ^ 63)%Z).
  { intros k m I M W. destruct (word (N.of_nat k) b) as [[n q]|] eqn:E; [|discriminate].
    apply word_some in E as (p & -> & L & ->). destruct (number p <? 2 ^ 63) eqn:F; [|discriminate].
    apply N.ltb_lt in F. injection W as <- <-. exists (c :: p). split; [reflexivity|]. split.
    - rewrite (of_ord _ _ M). exact (I_unsigned k m p I (eq_len _ _ L)).
    - change (2 ^ 63)%Z with (Z.of_N (2 ^ 63)). lia. }
  assert (V : forall k m, In (k, m) [(1%nat, 0xd0); (2%nat, 0xd1); (4%nat, 0xd2); (8%nat, 0xd3)] -> ord c = m ->
    match word (N.of_nat k) b with
    | None => None
    | Some (n, r) => Some (signed (N.of_nat k) n, r)
    end = Some (z, r) -> exists p, c :: b = p ++ r /\ int_bytes z p /\ (- 2 ^ 63 <= z < 2 ^ 63)%Z).
  { intros k m I M W. destruct (word (N.of_nat k) b) as [[n q]|] eqn:E; [|discriminate].
    apply word_some in E as (p & -> & L & ->).
    assert (LE := eq_len _ _ L). assert (K : (1 <= k <= 8)%nat).
    { cbn [In] in I. repeat destruct I as [I|I]; try contradiction; injection I as <- <-; lia. }
    rewrite <- L, signed_two in W by lia. injection W as <- <-. exists (c :: p). split; [reflexivity|]. split.
    - rewrite (of_ord _ _ M). exact (I_signed k m p I LE).
    - unfold two. cbv zeta. pose proof (number_lt p) as NL. rewrite LE in *.
      set (bits := (8 * Z.of_nat k)%Z).
      assert (P : (Z.of_N (number p) < 2 ^ bits)%Z).
      { unfold bits. replace (8 * Z.of_nat k)%Z with (Z.of_N (8 * N.of_nat k)) by lia.
        change 2%Z with (Z.of_N 2). rewrite <- N2Z.inj_pow. lia. }
      assert (Q : (2 ^ bits = 2 * 2 ^ (bits - 1))%Z).
      { rewrite <- Z.pow_succ_r by lia. f_equal. lia. }
      assert (Q2 : (2 ^ (bits - 1) <= 2 ^ 63)%Z) by (apply Z.pow_le_mono_r; lia).
      assert (Q3 : (0 < 2 ^ (bits - 1))%Z) by (apply Z.pow_pos_nonneg; lia).
      destruct (Z.of_N (number p) <? 2 ^ (bits - 1))%Z eqn:F; cmp; lia. }
  destruct (ord c =? 204) eqn:E2; cmp; [apply (U 1%nat 204); auto; cbn; auto|].
  destruct (ord c =? 205) eqn:E3; cmp; [apply (U 2%nat 205); auto; cbn; auto|].
  destruct (ord c =? 206) eqn:E4; cmp; [apply (U 4%nat 206); auto; cbn; auto|].
  destruct (ord c =? 207) eqn:E5; cmp; [apply (U 8%nat 207); auto; cbn; auto|].
  destruct (ord c =? 208) eqn:E6; cmp; [apply (V 1%nat 208); auto; cbn; auto|].
  destruct (ord c =? 209) eqn:E7; cmp; [apply (V 2%nat 209); auto; cbn; auto|].
  destruct (ord c =? 210) eqn:E8; cmp; [apply (V 4%nat 210); auto; cbn; auto|].
  destruct (ord c =? 211) eqn:E9; cmp; [apply (V 8%nat 211); auto; cbn; auto|].
  discriminate.
Qed.

Lemma reads_int : forall bits, (bits <= 64)%Z -> reads (read_int bits) (as_int bits).
Proof.
  intros bits B b a r. unfold read_int. split.
  - intros H. destruct (read_int64 b) as [[z q]|] eqn:E; [|discriminate].
    apply read_int64_some in E as (p & -> & I & _).
    destruct ((- 2 ^ (bits - 1) <=? z) && (z <? 2 ^ (bits - 1)))%Z eqn:F; [|discriminate].
    injection H as <- <-. exists (VInt z), p. split; [reflexivity|]. split; [constructor; exact I|].
    cbn [as_int]. rewrite F. reflexivity.
  - intros (x & p & -> & P & V). destruct x; try discriminate. cbn [as_int] in V.
    inversion P; subst. destruct ((- 2 ^ (bits - 1) <=? z) && (z <? 2 ^ (bits - 1)))%Z eqn:F; [|discriminate].
    injection V as <-. assert (L : (2 ^ (bits - 1) <= 2 ^ 63)%Z) by (apply Z.pow_le_mono_r; lia).
    rewrite (int_bytes_read z p) by (try assumption; cmp; lia). rewrite F. reflexivity.
Qed.

Lemma int_bytes_uread : forall z p, int_bytes z p -> forall r,
  (0 <= z)%Z -> read_uint64 (p ++ r) = Some (Z.to_N z, r).
Proof.
  intros z p H r L. destruct H as [n H|n H|k m b I K|k m b I K].
  - cbn [app read_uint64]. change (ascii_of_N n) with (chr n). rewrite !ord_chr by lia. ifs.
    rewrite N2Z.id. reflexivity.
  - lia.
  - cbn [In] in I. rewrite N2Z.id. repeat destruct I as [I|I]; try contradiction; injection I as <- <-;
      cbn [app read_uint64]; closed_ord; closed;
      exact (word_app b r _ (len_eq _ _ K)).
  - assert (T : (1 <= k)%nat -> Z.to_N (two b) = number b /\ number b < 2 ^ (8 * N.of_nat k - 1)).
    { intros K1. unfold two in L |- *. cbv zeta in L |- *. rewrite K in *.
      pose proof (number_lt b) as NL. rewrite K in NL.
      assert (P : (Z.of_N (number b) < 2 ^ (8 * Z.of_nat k))%Z).
      { replace (8 * Z.of_nat k)%Z with (Z.of_N (8 * N.of_nat k)) by lia.
        change 2%Z with (Z.of_N 2). rewrite <- N2Z.inj_pow. lia. }
      destruct (Z.of_N (number b) <? 2 ^ (8 * Z.of_nat k - 1))%Z eqn:F; cmp; [|lia].
      split; [apply N2Z.id|].
      apply N2Z.inj_lt. rewrite N2Z.inj_pow.
      replace (Z.of_N (8 * N.of_nat k - 1)) with (8 * Z.of_nat k - 1)%Z by lia. exact F. }
    cbn [In] in I. repeat destruct I as [I|I]; try contradiction; injection I as <- <-;
      (destruct T as [T1 T2]; [lia|]); rewrite T1;
      cbn [app read_uint64]; closed_ord; closed;
      erewrite word_app by (rewrite (len_eq _ _ K); reflexivity); cbv beta iota; apply N.ltb_lt in T2;
      match goal with |- (if ?c then _ else _) = _ => replace c with true by (symmetry; exact T2) end; reflexivity.
Qed.

Lemma read_uint64_some : forall b n r, read_uint64 b = Some (n, r) ->
  exists p, b = p ++ r /\ int_bytes (Z.of_N n) p /\ n < 2 ^ 64.
Proof.
  intros b z r H. destruct b as [|c b]; [discriminate|]. cbn [read_uint64] in H.
  pose proof (ord_lt c) as O.
  destruct (ord c <? 128) eqn:E0; cmp.
  { injection H as <- <-. exists [c]. split; [reflexivity|]. split; [|lia].
    rewrite <- (chr_ord c) at 2. constructor. exact E0. }
  assert (Small : forall k (p : bytes), (k <= 8)%nat -> List.length p = k -> number p < 2 ^ 64).
  { intros k p K L. pose proof (number_lt p) as NL. rewrite L in NL.
    eapply N.lt_le_trans; [exact NL|]. apply N.pow_le_mono_r; lia. }
  assert (U : forall k m, In (k, m) [(1%nat, 0xcc); (2%nat, 0xcd); (4%nat, 0xce); (8%nat, 0xcf)] -> ord c = m ->
    word (N.of_nat k) b = Some (z, r) -> exists p, c :: b = p ++ r /\ int_bytes (Z.of_N z) p /\ z < 2 ^ 64).
  { intros k m I M E. apply word_some in E as (p & -> & L & ->). exists (c :: p). split; [reflexivity|]. split.
    - rewrite (of_ord _ _ M). exact (I_unsigned k m p I (eq_len _ _ L)).
    - apply (Small k); [|apply eq_len, L].
      cbn [In] in I. repeat destruct I as [I|I]; try contradiction; injection I as <- <-; lia. }
  assert (V : forall k m, In (k, m) [(1%nat, 0xd0); (2%nat, 0xd1); (4%nat, 0xd2); (8%nat, 0xd3)] -> ord c = m ->
    match word (N.of_nat k) b with
    | None => None
    | Some (n, r) => if n <? 2 ^ (8 * N.of_nat k - 1) then Some (n, r) else None
    end = Some (z, r) -> exists p, c :: b = p ++ r /\ int_bytes (Z.of_N z) p /\ z < 2 ^ 64).
  { intros k m I M W. destruct (word (N.of_nat k) b) as [[n q]|] eqn:E; [|discriminate].
    apply word_some in E as (p & -> & L & ->).
    assert (LE := eq_len _ _ L). assert (K : (1 <= k <= 8)%nat).
    { cbn [In] in I. repeat destruct I as [I|I]; try contradiction; injection I as <- <-; lia. }
    destruct (number p <? 2 ^ (8 * N.of_nat k - 1)) eqn:F; [|discriminate]. injection W as <- <-.
    exists (c :: p). split; [reflexivity|]. split.
    - rewrite (of_ord _ _ M).
      replace (Z.of_N (number p)) with (two p); [exact (I_signed k m p I LE)|].
      rewrite <- signed_two by lia. unfold signed. rewrite L, F. reflexivity.
    - apply (Small k); [lia|exact LE]. }
  destruct (ord c =? 204) eqn:E2; cmp; [apply (U 1%nat 204); auto; cbn; auto|].
  destruct (ord c =? 205) eqn:E3; cmp; [apply (U 2%nat 205); auto; cbn; auto|].
  destruct (ord c =? 206) eqn:E4; cmp; [apply (U 4%nat 206); auto; cbn; auto|].
  destruct (ord c =? 207) eqn:E5; cmp; [apply (U 8%nat 207); auto; cbn; auto|].
  destruct (ord c =? 208) eqn:E6; cmp; [apply (V 1%nat 208); auto; cbn; auto|].
  destruct (ord c =? 209) eqn:E7; cmp; [apply (V 2%nat 209); auto; cbn; auto|].
  destruct (ord c =? 210) eqn:E8; cmp; [apply (V 4%nat 210); auto; cbn; auto|].
  destruct (ord c =? 211) eqn:E9; cmp; [apply (V 8%nat 211); auto; cbn; auto|].
  discriminate.
Qed.

Lemma reads_uint : forall bits, reads (read_uint bits) (as_uint bits).
Proof.
  intros bits b a r. unfold read_uint.
  assert (Q : Z.of_N (2 ^ bits) = (2 ^ Z.of_N bits)%Z) by (rewrite N2Z.inj_pow; reflexivity).
  split.
  - intros H. destruct (read_uint64 b) as [[n q]|] eqn:E; [|discriminate].
    apply read_uint64_some in E as (p & -> & I & _).
    destruct (n <? 2 ^ bits) eqn:F; [|discriminate]. cmp.
    injection H as <- <-. exists (VInt (Z.of_N n)), p. split; [reflexivity|]. split; [constructor; exact I|].
    cbn [as_uint]. rewrite N2Z.id.
    destruct ((0 <=? Z.of_N n) && (Z.of_N n <? 2 ^ Z.of_N bits))%Z eqn:G; [reflexivity|].
    cmp. destruct G as [G|G]; cmp; lia.
  - intros (x & p & -> & P & V). destruct x; try discriminate. cbn [as_uint] in V.
    inversion P; subst. destruct ((0 <=? z) && (z <? 2 ^ Z.of_N bits))%Z eqn:F; [|discriminate].
    injection V as <-. cmp.
    rewrite (int_bytes_uread z p) by (assumption || lia).
    destruct (Z.to_N z <? 2 ^ bits) eqn:G; [reflexivity|]. cmp. lia.
Qed.

Lemma reads_float : forall widen, reads (read_float widen) (as_float widen).
Proof.
  intros widen b a r. split.
  - destruct b as [|c b]; [discriminate|]. cbn [read_float].
    destruct (ord c =? 203) eqn:E; [|destruct (ord c =? 202) eqn:F; [|discriminate]]; cmp; intros H.
    + apply word_some in H as (p & -> & L & ->). rewrite (of_ord _ _ E).
      exists (VFloat (number p)), (chr 203 :: p). split; [reflexivity|]. split; [|reflexivity].
      constructor. apply (eq_len p 8 L).
    + destruct (word 4 b) as [[n q]|] eqn:W; [|discriminate]. injection H as <- <-.
      apply word_some in W as (p & -> & L & ->). rewrite (of_ord _ _ F).
      exists (VFloat32 (number p)), (chr 202 :: p). split; [reflexivity|]. split; [|reflexivity].
      constructor. apply (eq_len p 4 L).
  - intros (x & p & -> & P & V). destruct x; try discriminate; injection V as <-; inversion P as [ | | | |p' L|p' L| | | | | | ]; subst;
      cbn [app read_float]; closed; erewrite word_app by (rewrite (len_eq _ _ L); reflexivity); reflexivity.
Qed.

(* Heads with a count. *)
Lemma text_head_read : forall h n r q s, text_head n h -> len s = n -> r = s ++ q -> read_string (h ++ r) = Some (s, q).
Proof.
  intros h n r q s H L ->. destruct H as [n H|k m b I K].
  - cbn [app read_string]. change (ascii_of_N (160 + n)) with (chr (160 + n)). rewrite !ord_chr by lia.
    ifs; [|destruct E; cmp; lia]. replace (160 + n - 160) with n by lia. apply take_app. exact L.
  - cbn [In] in I. repeat destruct I as [I|I]; try contradiction; injection I as <- <-;
      cbn [app read_string]; closed; (erewrite word_app by (rewrite (len_eq _ _ K); reflexivity)); cbv beta iota;
      apply take_app; exact L.
Qed.

Lemma read_string_some : forall b s r, read_string b = Some (s, r) ->
  exists h, text_head (len s) h /\ b = h ++ s ++ r.
Proof.
  intros b s r H. destruct b as [|c b]; [discriminate|]. cbn [read_string] in H.
  assert (U : forall k m, In (k, m) [(1%nat, 0xd9); (2%nat, 0xda); (4%nat, 0xdb)] -> ord c = m ->
    match word (N.of_nat k) b with None => None | Some (n, r) => take n r end = Some (s, r) ->
    exists h, text_head (len s) h /\ c :: b = h ++ s ++ r).
  { intros k m I M W. destruct (word (N.of_nat k) b) as [[n q]|] eqn:E; [|discriminate].
    apply word_some in E as (p & -> & L & ->). apply take_some in W as [-> L2].
    exists (c :: p). split; [|reflexivity]. rewrite (of_ord _ _ M), L2. exact (H_large _ _ _ k m p I (eq_len _ _ L)). }
  destruct ((160 <=? ord c) && (ord c <? 192)) eqn:E.
  { cmp. apply take_some in H as [-> L]. exists [c]. split; [|reflexivity].
    rewrite L. rewrite <- (chr_ord c) at 2.
    replace (ord c) with (160 + (ord c - 160)) at 2 by lia. constructor. lia. }
  clear E. destruct (ord c =? 217) eqn:E1; cmp; [apply (U 1%nat 217); auto; cbn; auto|].
  destruct (ord c =? 218) eqn:E2; cmp; [apply (U 2%nat 218); auto; cbn; auto|].
  destruct (ord c =? 219) eqn:E3; cmp; [apply (U 4%nat 219); auto; cbn; auto|].
  discriminate.
Qed.

Lemma reads_text : reads read_string as_text.
Proof.
  intros b a r. split.
  - intros H. apply read_string_some in H as (h & T & ->). exists (VText a), (h ++ a).
    rewrite app_assoc. split; [reflexivity|]. split; [constructor; exact T|reflexivity].
  - intros (x & p & -> & P & V). destruct x; try discriminate. injection V as ->.
    inversion P; subst. rewrite <- app_assoc. eapply text_head_read; eauto.
Qed.

Definition as_name (x : value) : option str :=
  match x with
  | VText s | VBin s => Some s
  | _ => None
  end.

Lemma reads_name : reads read_key as_name.
Proof.
  intros b a r. split.
  - intros H. destruct b as [|c b]; [discriminate|]. cbn [read_key] in H.
    assert (U : forall k m, In (k, m) [(1%nat, 0xc4); (2%nat, 0xc5); (4%nat, 0xc6)] -> ord c = m ->
      match word (N.of_nat k) b with None => None | Some (n, r) => take n r end = Some (a, r) ->
      exists x p, c :: b = p ++ r /\ packs x p /\ as_name x = Some a).
    { intros k m I M W. destruct (word (N.of_nat k) b) as [[n q]|] eqn:E; [|discriminate].
      apply word_some in E as (p & -> & L & ->). apply take_some in W as [-> L2].
      exists (VBin a), ((c :: p) ++ a). cbn [app]. rewrite app_assoc. split; [reflexivity|]. split; [|reflexivity].
      change (c :: p ++ a) with ((c :: p) ++ a). constructor. rewrite L2, (of_ord _ _ M).
      exact (H_large _ _ _ k m p I (eq_len _ _ L)). }
    destruct (ord c =? 196) eqn:E1; cmp; [apply (U 1%nat 196); auto; cbn; auto|].
    destruct (ord c =? 197) eqn:E2; cmp; [apply (U 2%nat 197); auto; cbn; auto|].
    destruct (ord c =? 198) eqn:E3; cmp; [apply (U 4%nat 198); auto; cbn; auto|].
    apply reads_text in H as (x & p & B & P & V). exists x, p. destruct x; try discriminate. auto.
  - intros (x & p & -> & P & V). destruct x; try discriminate; injection V as ->; inversion P; subst.
    + assert (R : read_string ((h ++ a) ++ r) = Some (a, r)).
      { apply reads_text. exists (VText a), (h ++ a). auto. }
      match goal with T : text_head _ _ |- _ => destruct T as [n H|k m b I K] end.
      * cbn [app read_key]. change (ascii_of_N (160 + n)) with (chr (160 + n)) in *. rewrite !ord_chr by lia.
        repeat ifs. exact R.
      * cbn [In] in I. repeat destruct I as [I|I]; try contradiction; injection I as <- <-;
          cbn [app read_key] in *; closed; exact R.
    + rewrite <- app_assoc.
      match goal with T : bin_head _ _ |- _ => remember (len a) as n eqn:L; destruct T as [n H|k m b I K] end; [lia|].
      cbn [In] in I. repeat destruct I as [I|I]; try contradiction; injection I as <- <-;
        cbn [app read_key]; closed; (erewrite word_app by (rewrite (len_eq _ _ K); reflexivity)); cbv beta iota;
        apply take_app; auto.
Qed.

Lemma arr_head_read : forall h n r, arr_head n h -> read_array (h ++ r) = Some (n, r).
Proof.
  intros h n r H. destruct H as [n H|k m b I K].
  - cbn [app read_array]. change (ascii_of_N (144 + n)) with (chr (144 + n)). rewrite !ord_chr by lia.
    ifs; [|destruct E; cmp; lia]. replace (144 + n - 144) with n by lia. reflexivity.
  - cbn [In] in I. repeat destruct I as [I|I]; try contradiction; injection I as <- <-;
      cbn [app read_array]; closed; apply word_app; rewrite (len_eq _ _ K); reflexivity.
Qed.

Lemma read_array_some : forall b n r, read_array b = Some (n, r) -> exists h, arr_head n h /\ b = h ++ r.
Proof.
  intros b n r H. destruct b as [|c b]; [discriminate|]. cbn [read_array] in H.
  destruct ((144 <=? ord c) && (ord c <? 160)) eqn:E; cmp.
  { injection H as <- <-. exists [c]. split; [|reflexivity].
    rewrite <- (chr_ord c) at 2. replace (ord c) with (144 + (ord c - 144)) at 2 by lia. constructor. lia. }
  clear E. destruct (ord c =? 220) eqn:E1; cmp; [|destruct (ord c =? 221) eqn:E2; cmp; [|discriminate]].
  - apply word_some in H as (p & -> & L & ->). exists (c :: p). split; [|reflexivity].
    rewrite (of_ord _ _ E1). apply (H_large _ _ _ 2%nat 220); [cbn; auto|apply (eq_len p 2 L)].
  - apply word_some in H as (p & -> & L & ->). exists (c :: p). split; [|reflexivity].
    rewrite (of_ord _ _ E2). apply (H_large _ _ _ 4%nat 221); [cbn; auto|apply (eq_len p 4 L)].
Qed.

Lemma map_head_read : forall h n r, map_head n h -> read_map (h ++ r) = Some (n, r).
Proof.
  intros h n r H. destruct H as [n H|k m b I K].
  - cbn [app read_map]. change (ascii_of_N (128 + n)) with (chr (128 + n)). rewrite !ord_chr by lia.
    ifs; [|destruct E; cmp; lia]. replace (128 + n - 128) with n by lia. reflexivity.
  - cbn [In] in I. repeat destruct I as [I|I]; try contradiction; injection I as <- <-;
      cbn [app read_map]; closed; apply word_app; rewrite (len_eq _ _ K); reflexivity.
Qed.

Lemma read_map_some : forall b n r, read_map b = Some (n, r) -> exists h, map_head n h /\ b = h ++ r.
Proof.
  intros b n r H. destruct b as [|c b]; [discriminate|]. cbn [read_map] in H.
  destruct ((128 <=? ord c) && (ord c <? 144)) eqn:E; cmp.
  { injection H as <- <-. exists [c]. split; [|reflexivity].
    rewrite <- (chr_ord c) at 2. replace (ord c) with (128 + (ord c - 128)) at 2 by lia. constructor. lia. }
  clear E. destruct (ord c =? 222) eqn:E1; cmp; [|destruct (ord c =? 223) eqn:E2; cmp; [|discriminate]].
  - apply word_some in H as (p & -> & L & ->). exists (c :: p). split; [|reflexivity].
    rewrite (of_ord _ _ E1). apply (H_large _ _ _ 2%nat 222); [cbn; auto|apply (eq_len p 2 L)].
  - apply word_some in H as (p & -> & L & ->). exists (c :: p). split; [|reflexivity].
    rewrite (of_ord _ _ E2). apply (H_large _ _ _ 4%nat 223); [cbn; auto|apply (eq_len p 4 L)].
Qed.

Lemma head_nonempty : forall base max marks n h, head base max marks n h -> (1 <= List.length h)%nat.
Proof. intros. destruct H; cbn; lia. Qed.

Lemma packs_nonempty : forall x p, packs x p -> (1 <= List.length p)%nat.
Proof.
  intros x p H. destruct H as [| | |z b I|b L|b L|s h T|s h T|n h b T L|k m b I L|l h b T A|l h b T A]; cbn [List.length]; try lia;
    try (rewrite app_length; pose proof (head_nonempty _ _ _ _ _ T); lia).
  destruct I; cbn; lia.
Qed.

(* --- arrays of strings --- *)

Lemma strings_some : forall fuel n b l r, strings fuel n b = Some (l, r) ->
  exists xs p, b = p ++ r /\ packs_all xs p /\ all_texts xs = Some l /\ len xs = n.
Proof.
  induction fuel as [|fuel IH]; intros n b l r H; cbn [strings] in H.
  - destruct (n =? 0) eqn:E; [|discriminate]. cmp. injection H as <- <-.
    exists [], []. repeat split; [constructor|subst; reflexivity].
  - destruct (n =? 0) eqn:E; cmp.
    { injection H as <- <-. exists [], []. repeat split; [constructor|subst; reflexivity]. }
    destruct (read_string b) as [[s q]|] eqn:R; [|discriminate].
    destruct (strings fuel (n - 1) q) as [[t q']|] eqn:S1; [|discriminate]. injection H as <- <-.
    apply IH in S1 as (xs & p & -> & A & T & L). apply read_string_some in R as (h & HT & ->).
    exists (VText s :: xs), ((h ++ s) ++ p). rewrite <- !app_assoc. split; [reflexivity|]. split.
    { rewrite app_assoc. constructor; [constructor; exact HT|exact A]. }
    split; [cbn [all_texts]; rewrite T; reflexivity|]. rewrite len_cons. lia.
Qed.

Lemma strings_read : forall xs p l, packs_all xs p -> all_texts xs = Some l -> forall fuel r,
  (List.length p <= fuel)%nat -> strings fuel (len xs) (p ++ r) = Some (l, r).
Proof.
  induction xs as [|x xs IH]; intros p l A T fuel r F.
  - injection T as <-. inversion A; subst. destruct fuel; reflexivity.
  - inversion A as [|x' xs' b c P A']; subst. cbn [all_texts] in T.
    destruct x as [| | | | |s| | | |]; try discriminate.
    destruct (all_texts xs) as [t|] eqn:T'; [|discriminate]. injection T as <-.
    pose proof (packs_nonempty _ _ P) as NE. rewrite app_length in F.
    destruct fuel as [|fuel]; [lia|]. cbn [strings]. rewrite len_cons.
    destruct (1 + len xs =? 0) eqn:E; cmp; [lia|].
    inversion P; subst. rewrite <- !app_assoc. rewrite (text_head_read h (len s) _ (c ++ r) s) by auto.
    replace (1 + len xs - 1) with (len xs) by lia. rewrite (IH c t) by (auto || lia). reflexivity.
Qed.

Lemma reads_texts : forall old, reads (fun b => snd (read_strings old b)) as_texts.
Proof.
  intros old b a r. unfold read_strings. split.
  - intros H. destruct (read_array b) as [[n q]|] eqn:R; [|discriminate]. cbn [snd] in H.
    apply read_array_some in R as (h & AH & ->). apply strings_some in H as (xs & p & -> & A & T & L).
    exists (VArr xs), (h ++ p). rewrite app_assoc. split; [reflexivity|]. split; [|exact T].
    constructor; [rewrite L; exact AH|exact A].
  - intros (x & p & -> & P & V). destruct x as [| | | | | | | |xs|]; try discriminate. cbn [as_texts] in V.
    inversion P as [| | | | | | | | | |l h c AH A|]; subst. rewrite <- app_assoc, (arr_head_read h (len xs)) by exact AH.
    cbn [snd]. apply strings_read; [exact A|exact V|]. rewrite app_length. lia.
Qed.

(* --- skipping a value --- *)

Lemma packs_all_app : forall l m p q, packs_all l p -> packs_all m q -> packs_all (l ++ m) (p ++ q).
Proof.
  induction l as [|x l IH]; intros m p q A B; inversion A; subst; [exact B|].
  cbn [app]. rewrite <- app_assoc. constructor; auto.
Qed.

Lemma packs_all_split : forall l m p, packs_all (l ++ m) p ->
  exists a b, p = a ++ b /\ packs_all l a /\ packs_all m b.
Proof.
  induction l as [|x l IH]; intros m p A.
  - exists [], p. repeat split; [constructor|exact A].
  - cbn [app] in A. inversion A as [|x' l' b c P A']; subst. apply IH in A' as (u & v & -> & U & V).
    exists (b ++ u), v. rewrite app_assoc. repeat split; [constructor; assumption|exact V].
Qed.

Lemma flat_len : forall l, len (flat l) = 2 * len l.
Proof. induction l as [|[k x] l IH]; [reflexivity|]. cbn [flat]. rewrite !len_cons, IH. lia. Qed.

Lemma unflat : forall n l, len l = 2 * n -> exists m, l = flat m /\ len m = n.
Proof.
  intros n. induction n as [|n IH] using N.peano_ind; intros l L.
  - destruct l; [exists []; auto|rewrite len_cons in L; lia].
  - destruct l as [|k l]; [rewrite len_nil in L; lia|]. destruct l as [|x l]; [rewrite len_cons, len_nil in L; lia|].
    rewrite !len_cons in L. destruct (IH l) as (m & -> & M); [lia|]. exists ((k, x) :: m).
    split; [reflexivity|]. rewrite len_cons, M. lia.
Qed.

(* A value begins with a head whose size and number of inner values `size_of` tells. *)
Lemma size_of_packs : forall x p, packs x p -> exists h l q,
  p = h ++ q /\ packs_all l q /\ (1 <= List.length h)%nat /\
  forall r, size_of (h ++ r) = Some (len h, len l).
Proof.
  intros x p H.
  assert (Plain : forall b, (1 <= List.length b)%nat -> (forall r, size_of (b ++ r) = Some (len b, 0)) ->
    exists h l q, b = h ++ q /\ packs_all l q /\ (1 <= List.length h)%nat /\
    forall r, size_of (h ++ r) = Some (len h, len l)).
  { intros b L S1. exists b, [], []. rewrite app_nil_r. repeat split; [constructor|exact L|exact S1]. }
  destruct H as [| | |z b I|b L|b L|s h T|s h T|n h b T L|k m b I L|l h b T A|l h b T A].
  - apply Plain; [cbn; lia|]. reflexivity.
  - apply Plain; [cbn; lia|]. reflexivity.
  - apply Plain; [cbn; lia|]. reflexivity.
  - apply Plain; [destruct I; cbn; lia|]. intros r.
    destruct I as [n H|n H|k m b I K|k m b I K].
    + cbn [app size_of]. change (ascii_of_N n) with (chr n). rewrite !ord_chr by lia. cbv zeta. ifs. reflexivity.
    + cbn [app size_of]. change (ascii_of_N n) with (chr n). rewrite !ord_chr by lia. cbv zeta. repeat ifs. reflexivity.
    + cbn [In] in I. repeat destruct I as [I|I]; try contradiction; injection I as <- <-;
        cbn [app size_of]; closed; rewrite len_cons, (len_eq _ _ K); reflexivity.
    + cbn [In] in I. repeat destruct I as [I|I]; try contradiction; injection I as <- <-;
        cbn [app size_of]; closed; rewrite len_cons, (len_eq _ _ K); reflexivity.
  - apply Plain; [cbn; lia|]. intros r. cbn [app size_of]. closed. rewrite len_cons, (len_eq _ _ L). reflexivity.
  - apply Plain; [cbn; lia|]. intros r. cbn [app size_of]. closed. rewrite len_cons, (len_eq _ _ L). reflexivity.
  - apply Plain; [rewrite app_length; pose proof (head_nonempty _ _ _ _ _ T); lia|]. intros r.
    rewrite len_app. remember (len s) as n eqn:E0. destruct T as [n H|k m b I K].
    + cbn [app size_of]. change (ascii_of_N (160 + n)) with (chr (160 + n)). rewrite !ord_chr by lia. cbv zeta.
      repeat ifs. rewrite len_cons, len_nil. do 2 f_equal. lia.
    + cbn [In] in I. repeat destruct I as [I|I]; try contradiction; injection I as <- <-;
        cbn [app size_of]; rewrite <- app_assoc; closed;
        (erewrite word_app by (rewrite (len_eq _ _ K); reflexivity)); cbv beta iota;
        rewrite len_cons, (len_eq _ _ K); reflexivity.
  - apply Plain; [rewrite app_length; pose proof (head_nonempty _ _ _ _ _ T); lia|]. intros r.
    rewrite len_app. remember (len s) as n eqn:E0. destruct T as [n H|k m b I K]; [lia|].
    cbn [In] in I. repeat destruct I as [I|I]; try contradiction; injection I as <- <-;
        cbn [app size_of]; rewrite <- app_assoc; closed;
        (erewrite word_app by (rewrite (len_eq _ _ K); reflexivity)); cbv beta iota;
        rewrite len_cons, (len_eq _ _ K); reflexivity.
  - apply Plain; [rewrite app_length; pose proof (head_nonempty _ _ _ _ _ T); lia|]. intros r.
    rewrite len_app, L. destruct T as [n H|k m c I K]; [lia|].
    cbn [In] in I. repeat destruct I as [I|I]; try contradiction; injection I as <- <-;
        cbn [app size_of]; rewrite <- app_assoc; closed;
        (erewrite word_app by (rewrite (len_eq _ _ K); reflexivity)); cbv beta iota;
        rewrite len_cons, (len_eq _ _ K); do 2 f_equal; lia.
  - apply Plain; [cbn; lia|]. intros r. rewrite len_cons, (len_eq _ _ L).
    cbn [In] in I. repeat destruct I as [I|I]; try contradiction; injection I as <- <-;
        cbn [app size_of]; closed; reflexivity.
  - exists h, l, b. split; [reflexivity|]. split; [exact A|]. split; [exact (head_nonempty _ _ _ _ _ T)|]. intros r.
    remember (len l) as n eqn:E0. destruct T as [n H|k m c I K].
    + cbn [app size_of]. change (ascii_of_N (144 + n)) with (chr (144 + n)). rewrite !ord_chr by lia. cbv zeta.
      repeat ifs. rewrite len_cons, len_nil. do 2 f_equal. lia.
    + cbn [In] in I. repeat destruct I as [I|I]; try contradiction; injection I as <- <-;
        cbn [app size_of]; closed;
        (erewrite word_app by (rewrite (len_eq _ _ K); reflexivity)); cbv beta iota;
        rewrite len_cons, (len_eq _ _ K), N.mul_1_l; reflexivity.
  - exists h, (flat l), b. split; [reflexivity|]. split; [exact A|]. split; [exact (head_nonempty _ _ _ _ _ T)|]. intros r.
    rewrite flat_len. remember (len l) as n eqn:E0. destruct T as [n H|k m c I K].
    + cbn [app size_of]. change (ascii_of_N (128 + n)) with (chr (128 + n)). rewrite !ord_chr by lia. cbv zeta.
      repeat ifs. rewrite len_cons, len_nil. do 2 f_equal. lia.
    + cbn [In] in I. repeat destruct I as [I|I]; try contradiction; injection I as <- <-;
        cbn [app size_of]; closed;
        (erewrite word_app by (rewrite (len_eq _ _ K); reflexivity)); cbv beta iota;
        rewrite len_cons, (len_eq _ _ K); reflexivity.
Qed.

Lemma some_pair : forall a b c d : N, Some (a, b) = Some (c, d) -> a = c /\ b = d.
Proof. intros. split; congruence. Qed.

(* And the other way round: what `size_of` tells is the head of a value. *)
Lemma size_of_some : forall b size inside h r l q, size_of b = Some (size, inside) -> take size b = Some (h, r) ->
  packs_all l q -> len l = inside -> (1 <= List.length h)%nat /\ exists x, packs x (h ++ q).
Proof.
  intros b size inside h r l q S1 T A L. apply take_some in T as [-> LH].
  assert (NE : size <> 0 -> (1 <= List.length h)%nat) by (unfold len in LH; lia).
  assert (None_in : inside = 0 -> q = []).
  { intros Z0. destruct l; [inversion A; reflexivity|rewrite len_cons in L; lia]. }
  destruct h as [|c h].
  { rewrite len_nil in LH. subst size. exfalso. cbn [app] in S1. destruct r as [|c r]; [discriminate|].
    cbn [size_of] in S1. cbv zeta in S1.
    repeat match goal with
      | H : (if ?x then _ else _) = _ |- _ => destruct x
      | H : match word ?k ?r with _ => _ end = _ |- _ => destruct (word k r) as [[? ?]|]
      | H : Some _ = Some _ |- _ => apply (f_equal (fun o : option (N * N) => match o with Some (a, _) => a | None => 1 end)) in H; cbv beta iota in H; lia
      | H : None = Some _ |- _ => discriminate
      end.
  }
  split; [cbn; lia|]. clear NE. rewrite len_cons in LH. cbn [app] in S1 |- *. cbn [size_of] in S1. cbv zeta in S1.
  assert (Fixed : forall m s, ord c = m -> Some (s, 0) = Some (size, inside) ->
     (forall t, List.length t = List.length h -> 1 + N.of_nat (List.length h) = s -> exists x, packs x (ascii_of_N m :: t)) ->
     exists x, packs x (c :: h ++ q)).
  { intros m s M E F. apply some_pair in E as [<- <-]. rewrite (None_in eq_refl), app_nil_r, (of_ord _ _ M).
    apply F; [reflexivity|]. exact LH. }
  assert (Tail : forall k m s, ord c = m ->
     match word (N.of_nat k) (h ++ r) with None => None | Some (n, _) => Some (s + n, 0) end = Some (size, inside) ->
     1 + N.of_nat k <= s ->
     (forall a t, List.length a = k -> 1 + len (a ++ t) = s + number a -> exists x, packs x (ascii_of_N m :: a ++ t)) ->
     exists x, packs x (c :: h ++ q)).
  { intros k m s M E KS F. destruct (word (N.of_nat k) (h ++ r)) as [[n g]|] eqn:W; [|discriminate].
    apply some_pair in E as [E <-]. rewrite (None_in eq_refl), app_nil_r, (of_ord _ _ M).
    apply word_some in W as (a & B & K & ->). assert (KL := eq_len _ _ K).
    assert (LL : (List.length a <= List.length h)%nat) by (unfold len in LH, K; lia).
    assert (HA : h = a ++ skipn (List.length a) h).
    { rewrite <- (firstn_skipn (List.length a) h) at 1. f_equal.
      pose proof (f_equal (firstn (List.length a)) B) as B'. rewrite !firstn_app in B'.
      replace (List.length a - List.length h)%nat with O in B' by lia.
      rewrite firstn_all, Nat.sub_diag in B'. cbn [firstn] in B'. rewrite !app_nil_r in B'. exact B'. }
    rewrite HA. apply F; [exact KL|]. rewrite <- HA. lia. }
  assert (Parts : forall k m s mul, ord c = m ->
     match word (N.of_nat k) (h ++ r) with None => None | Some (n, _) => Some (s, mul * n) end = Some (size, inside) ->
     1 + N.of_nat k = s ->
     (forall a, List.length a = k -> len l = mul * number a -> exists x, packs x (ascii_of_N m :: a ++ q)) ->
     exists x, packs x (c :: h ++ q)).
  { intros k m s mul M E KS F. destruct (word (N.of_nat k) (h ++ r)) as [[n g]|] eqn:W; [|discriminate].
    apply some_pair in E as [E <-]. rewrite (of_ord _ _ M).
    assert (HA : len h = N.of_nat k) by lia. rewrite (word_app h r (N.of_nat k) HA) in W. injection W as <- <-.
    apply F; [exact (eq_len _ _ HA)|exact L]. }
  pose proof (ord_lt c) as OC.
  destruct (ord c <? 128) eqn:E0; cmp.
  { apply (Fixed (ord c) 1 eq_refl S1). intros t L1 L2. destruct t as [|? t]; [|cbn in L1; lia].
    exists (VInt (Z.of_N (ord c))). constructor. constructor. exact E0. }
  destruct (ord c <? 144) eqn:E1; cmp.
  { apply some_pair in S1 as [<- I]. assert (h = []) as -> by (destruct h; [reflexivity|rewrite len_cons in LH; lia]).
    destruct (unflat (ord c - 128) l) as (m & -> & M); [lia|]. exists (VMap m).
    change (c :: [] ++ q) with ([c] ++ q). constructor; [|exact A]. rewrite M.
    rewrite <- (chr_ord c) at 2. replace (ord c) with (128 + (ord c - 128)) at 2 by lia. constructor. lia. }
  destruct (ord c <? 160) eqn:E2; cmp.
  { apply some_pair in S1 as [<- I]. assert (h = []) as -> by (destruct h; [reflexivity|rewrite len_cons in LH; lia]).
    exists (VArr l).
    change (c :: [] ++ q) with ([c] ++ q). constructor; [|exact A]. rewrite L, <- I.
    rewrite <- (chr_ord c) at 2. replace (ord c) with (144 + (ord c - 144)) at 2 by lia. constructor. lia. }
  destruct (ord c <? 192) eqn:E3; cmp.
  { apply (Fixed (ord c) _ eq_refl S1). intros t L1 L2.
    exists (VText t). change (ascii_of_N (ord c) :: t) with ([ascii_of_N (ord c)] ++ t). constructor.
    replace (len t) with (ord c - 160) by (unfold len; lia).
    replace (ascii_of_N (ord c)) with (ascii_of_N (160 + (ord c - 160))) by (f_equal; lia). constructor. lia. }
  destruct (224 <=? ord c) eqn:E4; cmp.
  { apply (Fixed (ord c) 1 eq_refl S1). intros t L1 L2. destruct t as [|? t]; [|cbn in L1; lia].
    exists (VInt (Z.of_N (ord c) - 256)). constructor. constructor. lia. }
  assert (One : forall m y, packs y [ascii_of_N m] -> ord c = m -> Some (1, 0) = Some (size, inside) -> exists x, packs x (c :: h ++ q)).
  { intros m y P M E. apply (Fixed m 1 M E). intros t L1 L2. destruct t as [|? t]; [|cbn in L1; lia]. eauto. }
  destruct (ord c =? 192) eqn:F0; cmp; [exact (One 192 _ P_nil F0 S1)|clear F0].
  destruct (ord c =? 194) eqn:F0; cmp; [exact (One 194 _ P_false F0 S1)|clear F0].
  destruct (ord c =? 195) eqn:F0; cmp; [exact (One 195 _ P_true F0 S1)|clear F0].
  assert (Bin : forall k m, In (k, m) [(1%nat, 0xc4); (2%nat, 0xc5); (4%nat, 0xc6)] -> forall a t : bytes, List.length a = k ->
     1 + len (a ++ t) = 1 + N.of_nat k + number a -> exists x, packs x (ascii_of_N m :: a ++ t)).
  { intros k m I a t K E. exists (VBin t). change (ascii_of_N m :: a ++ t) with ((ascii_of_N m :: a) ++ t). constructor.
    replace (len t) with (number a) by (rewrite len_app, (len_eq _ _ K) in E; lia). exact (H_large _ _ _ k m a I K). }
  assert (Ext : forall k m, In (k, m) [(1%nat, 0xc7); (2%nat, 0xc8); (4%nat, 0xc9)] -> forall a t : bytes, List.length a = k ->
     1 + len (a ++ t) = 2 + N.of_nat k + number a -> exists x, packs x (ascii_of_N m :: a ++ t)).
  { intros k m I a t K E. exists (VExt t). change (ascii_of_N m :: a ++ t) with ((ascii_of_N m :: a) ++ t).
    apply (P_ext (number a)); [exact (H_large _ _ _ k m a I K)|]. rewrite len_app, (len_eq _ _ K) in E. lia. }
  assert (Text : forall k m, In (k, m) [(1%nat, 0xd9); (2%nat, 0xda); (4%nat, 0xdb)] -> forall a t : bytes, List.length a = k ->
     1 + len (a ++ t) = 1 + N.of_nat k + number a -> exists x, packs x (ascii_of_N m :: a ++ t)).
  { intros k m I a t K E. exists (VText t). change (ascii_of_N m :: a ++ t) with ((ascii_of_N m :: a) ++ t). constructor.
    replace (len t) with (number a) by (rewrite len_app, (len_eq _ _ K) in E; lia). exact (H_large _ _ _ k m a I K). }
  assert (Uns : forall k m, In (k, m) [(1%nat, 0xcc); (2%nat, 0xcd); (4%nat, 0xce); (8%nat, 0xcf)] -> forall t : bytes,
     List.length t = List.length h -> 1 + N.of_nat (List.length h) = 1 + N.of_nat k -> exists x, packs x (ascii_of_N m :: t)).
  { intros k m I t K E. exists (VInt (Z.of_N (number t))). constructor. apply (I_unsigned k); [exact I|lia]. }
  assert (Sig : forall k m, In (k, m) [(1%nat, 0xd0); (2%nat, 0xd1); (4%nat, 0xd2); (8%nat, 0xd3)] -> forall t : bytes,
     List.length t = List.length h -> 1 + N.of_nat (List.length h) = 1 + N.of_nat k -> exists x, packs x (ascii_of_N m :: t)).
  { intros k m I t K E. exists (VInt (two t)). constructor. apply (I_signed k); [exact I|lia]. }
  assert (Fix : forall k m, In (k, m) [(1%nat, 0xd4); (2%nat, 0xd5); (4%nat, 0xd6); (8%nat, 0xd7); (16%nat, 0xd8)] -> forall t : bytes,
     List.length t = List.length h -> 1 + N.of_nat (List.length h) = 2 + N.of_nat k -> exists x, packs x (ascii_of_N m :: t)).
  { intros k m I t K E. exists (VExt t). apply (P_fixext k); [exact I|lia]. }
  destruct (ord c =? 196) eqn:F0; cmp; [apply (Tail 1%nat 196 2 F0 S1); [lia|apply Bin; cbn; auto]|clear F0].
  destruct (ord c =? 197) eqn:F0; cmp; [apply (Tail 2%nat 197 3 F0 S1); [lia|apply Bin; cbn; auto]|clear F0].
  destruct (ord c =? 198) eqn:F0; cmp; [apply (Tail 4%nat 198 5 F0 S1); [lia|apply Bin; cbn; auto]|clear F0].
  destruct (ord c =? 199) eqn:F0; cmp; [apply (Tail 1%nat 199 3 F0 S1); [lia|apply Ext; cbn; auto]|clear F0].
  destruct (ord c =? 200) eqn:F0; cmp; [apply (Tail 2%nat 200 4 F0 S1); [lia|apply Ext; cbn; auto]|clear F0].
  destruct (ord c =? 201) eqn:F0; cmp; [apply (Tail 4%nat 201 6 F0 S1); [lia|apply Ext; cbn; auto]|clear F0].
  destruct (ord c =? 202) eqn:F0; cmp.
  { apply (Fixed 202 5 F0 S1). intros t K E. exists (VFloat32 (number t)). constructor. lia. }
  destruct (ord c =? 203) eqn:F1; cmp.
  { apply (Fixed 203 9 F1 S1). intros t K E. exists (VFloat (number t)). constructor. lia. }
  clear F0 F1.
  destruct (ord c =? 204) eqn:F0; cmp; [apply (Fixed 204 2 F0 S1), (Uns 1%nat); cbn; auto|clear F0].
  destruct (ord c =? 205) eqn:F0; cmp; [apply (Fixed 205 3 F0 S1), (Uns 2%nat); cbn; auto|clear F0].
  destruct (ord c =? 206) eqn:F0; cmp; [apply (Fixed 206 5 F0 S1), (Uns 4%nat); cbn; auto|clear F0].
  destruct (ord c =? 207) eqn:F0; cmp; [apply (Fixed 207 9 F0 S1), (Uns 8%nat); cbn; auto|clear F0].
  destruct (ord c =? 208) eqn:F0; cmp; [apply (Fixed 208 2 F0 S1), (Sig 1%nat); cbn; auto|clear F0].
  destruct (ord c =? 209) eqn:F0; cmp; [apply (Fixed 209 3 F0 S1), (Sig 2%nat); cbn; auto|clear F0].
  destruct (ord c =? 210) eqn:F0; cmp; [apply (Fixed 210 5 F0 S1), (Sig 4%nat); cbn; auto|clear F0].
  destruct (ord c =? 211) eqn:F0; cmp; [apply (Fixed 211 9 F0 S1), (Sig 8%nat); cbn; auto|clear F0].
  destruct (ord c =? 212) eqn:F0; cmp; [apply (Fixed 212 3 F0 S1), (Fix 1%nat); cbn; auto|clear F0].
  destruct (ord c =? 213) eqn:F0; cmp; [apply (Fixed 213 4 F0 S1), (Fix 2%nat); cbn; auto|clear F0].
  destruct (ord c =? 214) eqn:F0; cmp; [apply (Fixed 214 6 F0 S1), (Fix 4%nat); cbn; auto|clear F0].
  destruct (ord c =? 215) eqn:F0; cmp; [apply (Fixed 215 10 F0 S1), (Fix 8%nat); cbn; auto 6|clear F0].
  destruct (ord c =? 216) eqn:F0; cmp; [apply (Fixed 216 18 F0 S1), (Fix 16%nat); cbn; auto 7|clear F0].
  destruct (ord c =? 217) eqn:F0; cmp; [apply (Tail 1%nat 217 2 F0 S1); [lia|apply Text; cbn; auto]|clear F0].
  destruct (ord c =? 218) eqn:F0; cmp; [apply (Tail 2%nat 218 3 F0 S1); [lia|apply Text; cbn; auto]|clear F0].
  destruct (ord c =? 219) eqn:F0; cmp; [apply (Tail 4%nat 219 5 F0 S1); [lia|apply Text; cbn; auto]|clear F0].
  assert (Arr : forall k m, In (k, m) [(2%nat, 0xdc); (4%nat, 0xdd)] -> forall a : bytes, List.length a = k ->
     len l = 1 * number a -> exists x, packs x (ascii_of_N m :: a ++ q)).
  { intros k m I a K E. exists (VArr l). change (ascii_of_N m :: a ++ q) with ((ascii_of_N m :: a) ++ q).
    constructor; [|exact A]. rewrite E, N.mul_1_l. exact (H_large _ _ _ k m a I K). }
  assert (Map : forall k m, In (k, m) [(2%nat, 0xde); (4%nat, 0xdf)] -> forall a : bytes, List.length a = k ->
     len l = 2 * number a -> exists x, packs x (ascii_of_N m :: a ++ q)).
  { intros k m I a K E. destruct (unflat (number a) l E) as (g & -> & G). exists (VMap g).
    change (ascii_of_N m :: a ++ q) with ((ascii_of_N m :: a) ++ q).
    constructor; [|exact A]. rewrite G. exact (H_large _ _ _ k m a I K). }
  destruct (ord c =? 220) eqn:F0; cmp; [apply (Parts 2%nat 220 3 1 F0 S1); [lia|apply Arr; cbn; auto]|clear F0].
  destruct (ord c =? 221) eqn:F0; cmp; [apply (Parts 4%nat 221 5 1 F0 S1); [lia|apply Arr; cbn; auto]|clear F0].
  destruct (ord c =? 222) eqn:F0; cmp; [apply (Parts 2%nat 222 3 2 F0 S1); [lia|apply Map; cbn; auto]|clear F0].
  destruct (ord c =? 223) eqn:F0; cmp; [apply (Parts 4%nat 223 5 2 F0 S1); [lia|apply Map; cbn; auto]|clear F0].
  discriminate.
Qed.

Lemma skip_all_some : forall fuel todo b r, skip_all fuel todo b = Some r ->
  exists l p, b = p ++ r /\ packs_all l p /\ len l = todo.
Proof.
  induction fuel as [|fuel IH]; intros todo b r H; cbn [skip_all] in H.
  - destruct (todo =? 0) eqn:E; [|discriminate]. cmp. injection H as <-. exists [], []. repeat split; [constructor|auto].
  - destruct (todo =? 0) eqn:E; cmp.
    { injection H as <-. exists [], []. repeat split; [constructor|auto]. }
    destruct (size_of b) as [[size inside]|] eqn:S1; [|discriminate].
    destruct (take size b) as [[h q]|] eqn:T; [|discriminate].
    apply IH in H as (l & p & -> & A & L).
    rewrite <- (firstn_skipn (N.to_nat inside) l) in A. apply packs_all_split in A as (a & d & -> & A1 & A2).
    set (l1 := firstn (N.to_nat inside) l) in *. set (l2 := skipn (N.to_nat inside) l) in *.
    assert (L1 : len l1 = inside) by (unfold l1, len in *; rewrite firstn_length; lia).
    assert (L2 : len l2 = todo - 1) by (unfold l2, len in *; rewrite skipn_length; lia).
    destruct (size_of_some b size inside h _ l1 a S1 T A1 L1) as [_ [x P]].
    apply take_some in T as [-> _].
    exists (x :: l2), ((h ++ a) ++ d). rewrite <- !app_assoc. split; [reflexivity|]. split.
    + rewrite app_assoc. constructor; assumption.
    + rewrite len_cons. lia.
Qed.

Lemma skip_all_read : forall fuel l p, packs_all l p -> (List.length p <= fuel)%nat -> forall r,
  skip_all fuel (len l) (p ++ r) = Some r.
Proof.
  induction fuel as [|fuel IH]; intros l p A F r.
  - destruct l as [|x l]; inversion A as [|x' l' b c P A']; subst; [reflexivity|].
    pose proof (packs_nonempty _ _ P). rewrite app_length in F. lia.
  - destruct l as [|x l]; inversion A as [|x' l' b c P A']; subst; [reflexivity|].
    cbn [skip_all]. rewrite len_cons. destruct (1 + len l =? 0) eqn:E; cmp; [lia|].
    destruct (size_of_packs x b P) as (h & m & q & -> & Q & NE & S1).
    rewrite <- !app_assoc. rewrite S1, take_app by reflexivity.
    replace (1 + len l - 1 + len m) with (len (m ++ l)) by (rewrite len_app; lia).
    rewrite (app_assoc q c r). apply IH; [apply packs_all_app; assumption|].
    rewrite !app_length in *. lia.
Qed.

Lemma reads_unknown : forall A (z : A), reads (fun b => snd (unknown z b)) (fun _ => Some z).
Proof.
  intros A z b a r. unfold unknown, plain, skip. cbn [snd]. split.
  - destruct (skip_all (List.length b) 1 b) as [q|] eqn:S1; [|discriminate]. intros H. injection H as <- <-.
    apply skip_all_some in S1 as (l & p & -> & P & L).
    destruct l as [|x [|y l]]; [rewrite len_nil in L; lia| |rewrite !len_cons in L; lia].
    inversion P as [|x' l' p1 p2 P1 P2]; subst. inversion P2; subst. rewrite app_nil_r. exists x, p1. auto.
  - intros (x & p & -> & P & V). injection V as <-.
    assert (Q : packs_all [x] p) by (rewrite <- (app_nil_r p); repeat constructor; exact P).
    change 1 with (len [x]). rewrite (skip_all_read _ [x] p Q) by (rewrite app_length; lia). reflexivity.
Qed.

(* --- records --- *)

(* Fields one after another, at the level of values. *)
Fixpoint lay {A} (set : str -> value -> A -> option A) (fs : list (str * value)) (z : A) : option A :=
  match fs with
  | [] => Some z
  | (k, x) :: fs =>
      match set k x z with
      | None => None
      | Some z => lay set fs z
      end
  end.

Definition is_field {A} (field : str -> A -> bytes -> out A) (set : str -> value -> A -> option A) : Prop :=
  forall k z, reads (fun b => snd (field k z b)) (fun x => set k x z).

Lemma snd_bind : forall A B (x : out A) (f : A -> bytes -> out B),
  snd (bind x f) = match snd x with None => None | Some (a, r) => snd (f a r) end.
Proof. intros A B [n [[a r]|]] f; [|reflexivity]. cbn. destruct (f a r). reflexivity. Qed.

Lemma names_cons : forall k x l fs, names_of ((k, x) :: l) = Some fs <->
  exists n gs, as_name k = Some n /\ names_of l = Some gs /\ fs = (n, x) :: gs.
Proof.
  intros k x l fs. cbn [names_of]. split.
  - destruct k; try discriminate; (destruct (names_of l) as [gs|]; [|discriminate]); intros H; injection H as <-;
      (do 2 eexists; split; [reflexivity|]; split; reflexivity).
  - intros (n & gs & K & G & ->). destruct k; try discriminate; injection K as ->; rewrite G; reflexivity.
Qed.

Lemma fields_some : forall A field (set : str -> value -> A -> option A), is_field field set ->
  forall fuel n z b v r, snd (fields field fuel n z b) = Some (v, r) ->
  exists l fs p, b = p ++ r /\ packs_all (flat l) p /\ len l = n /\ names_of l = Some fs /\ lay set fs z = Some v.
Proof.
  intros A field set F. induction fuel as [|fuel IH]; intros n z b v r H; cbn [fields] in H.
  - destruct (n =? 0) eqn:E; [|discriminate]. cmp. injection H as <- <-. exists [], [], []. repeat split; [constructor|auto].
  - destruct (n =? 0) eqn:E; cmp.
    { injection H as <- <-. exists [], [], []. repeat split; [constructor|auto]. }
    destruct (read_key b) as [[k q]|] eqn:K; [|discriminate]. rewrite snd_bind in H.
    destruct (snd (field k z q)) as [[z' q']|] eqn:G; [|discriminate].
    apply (F k z) in G as (x & px & -> & PX & X). apply reads_name in K as (kx & pk & -> & PK & KN).
    apply IH in H as (l & fs & p & -> & PA & L & NM & LY).
    exists ((kx, x) :: l), ((k, x) :: fs), (pk ++ px ++ p). rewrite <- !app_assoc. split; [reflexivity|].
    split; [cbn [flat]; repeat constructor; assumption|]. split; [rewrite len_cons; lia|].
    split; [apply names_cons; eauto|]. cbn [lay]. rewrite X. exact LY.
Qed.

Lemma fields_read : forall A field (set : str -> value -> A -> option A), is_field field set ->
  forall l fs p z v, packs_all (flat l) p -> names_of l = Some fs -> lay set fs z = Some v ->
  forall fuel r, (List.length p <= fuel)%nat -> snd (fields field fuel (len l) z (p ++ r)) = Some (v, r).
Proof.
  intros A field set F. induction l as [|[kx x] l IH]; intros fs p z v P NM LY fuel r FU.
  - injection NM as <-. injection LY as <-. inversion P; subst. destruct fuel; reflexivity.
  - cbn [flat] in P. inversion P as [|a1 a2 pk c PK P1]; subst. inversion P1 as [|b1 b2 px p' PX P2]; subst.
    apply names_cons in NM as (k & gs & KN & NM & ->). cbn [lay] in LY.
    destruct (set k x z) as [z'|] eqn:X; [|discriminate].
    pose proof (packs_nonempty _ _ PK) as NE. rewrite !app_length in FU. destruct fuel as [|fuel]; [lia|].
    cbn [fields]. rewrite len_cons. destruct (1 + len l =? 0) eqn:E; cmp; [lia|].
    rewrite <- !app_assoc. assert (RK : read_key (pk ++ px ++ p' ++ r) = Some (k, px ++ p' ++ r)).
    { apply reads_name. exists kx, pk. auto. }
    rewrite RK, snd_bind. assert (RX : snd (field k z (px ++ p' ++ r)) = Some (z', p' ++ r)).
    { apply (F k z). exists x, px. auto. }
    rewrite RX. replace (1 + len l - 1) with (len l) by lia. apply (IH gs); auto. lia.
Qed.

Lemma reads_record : forall A field (set : str -> value -> A -> option A), is_field field set -> forall z,
  reads (fun b => snd (unmarshal field z b)) (fun x => meaning x (fun fs => lay set fs z)).
Proof.
  intros A field set F z b v r. unfold unmarshal. split.
  - intros H. destruct (read_map b) as [[n q]|] eqn:M; [|discriminate].
    apply read_map_some in M as (h & MH & ->). apply (fields_some A field set F) in H as (l & fs & p & -> & PA & L & NM & LY).
    exists (VMap l), (h ++ p). rewrite app_assoc. split; [reflexivity|]. split; [constructor; [rewrite L; exact MH|exact PA]|].
    cbn [meaning]. rewrite NM. exact LY.
  - intros (x & p & -> & P & V). destruct x as [| | | | | | | | |l]; try discriminate. cbn [meaning] in V.
    destruct (names_of l) as [fs|] eqn:NM; [|discriminate].
    inversion P as [| | | | | | | | | | |l' h c MH PA]; subst. rewrite <- app_assoc, (map_head_read h (len l)) by exact MH.
    apply (fields_read A field set F l fs); auto. rewrite app_length. lia.
Qed.

Lemma reads_into : forall A B (set : A -> B) (x : bytes -> out A) as_, reads (fun b => snd (x b)) as_ ->
  reads (fun b => snd (into set (x b))) (fun v => option_map set (as_ v)).
Proof.
  intros A B set x as_ R b a r. unfold into. rewrite snd_bind. split.
  - destruct (snd (x b)) as [[y q]|] eqn:E; [|discriminate]. intros H. injection H as <- <-.
    apply R in E as (v & p & -> & P & V). exists v, p. rewrite V. auto.
  - intros (v & p & -> & P & V). destruct (as_ v) as [y|] eqn:Y; [|discriminate]. injection V as <-.
    assert (E : snd (x (p ++ r)) = Some (y, r)) by (apply R; eauto). rewrite E. reflexivity.
Qed.

Lemma packs_nil_head : forall x p r, packs x p -> match p ++ r with c :: _ => (ord c =? 192) | [] => false end
  = match x with VNil => true | _ => false end.
Proof.
  intros x p r P.
  assert (Hd : forall base max marks n h t, head base max marks n h ->
    (forall n, n < max -> base + n < 256 /\ base + n <> 192) -> (forall k m, In (k, m) marks -> m < 256 /\ m <> 192) ->
    match (h ++ t) ++ r with c :: _ => (ord c =? 192) | [] => false end = false).
  { intros base max marks n h t H B M. destruct H as [n H|k m b I K]; cbn [app].
    - destruct (B n H) as [B1 B2]. change (ascii_of_N (base + n)) with (chr (base + n)). rewrite ord_chr by exact B1.
      apply N.eqb_neq. exact B2.
    - destruct (M k m I) as [B1 B2]. change (ascii_of_N m) with (chr m). rewrite ord_chr by exact B1.
      apply N.eqb_neq. exact B2. }
  assert (T : forall (k : nat) (m : N) marks, In (k, m) marks -> forallb (fun t => (snd t <? 256) && negb (snd t =? 192)) marks = true ->
    m < 256 /\ m <> 192).
  { intros k m marks I FB. rewrite forallb_forall in FB. specialize (FB _ I). cbn [snd] in FB.
    apply andb_true_iff in FB as [F1 F2]. apply negb_true_iff in F2. cmp. auto. }
  destruct P as [| | |z b I|b L|b L|s h H|s h H|n h b H L|k m b I L|l h b H A|l h b H A];
    try reflexivity;
    try (eapply Hd; [exact H|intros; lia|intros; eapply T; [eassumption|reflexivity]]).
  - destruct I as [n H|n H|k m b I K|k m b I K]; cbn [app].
    + change (ascii_of_N n) with (chr n). rewrite ord_chr by lia. apply N.eqb_neq. lia.
    + change (ascii_of_N n) with (chr n). rewrite ord_chr by lia. apply N.eqb_neq. lia.
    + destruct (T k m _ I eq_refl) as [B1 B2]. change (ascii_of_N m) with (chr m). rewrite ord_chr by exact B1.
      apply N.eqb_neq. exact B2.
    + destruct (T k m _ I eq_refl) as [B1 B2]. change (ascii_of_N m) with (chr m). rewrite ord_chr by exact B1.
      apply N.eqb_neq. exact B2.
  - cbn [app]. destruct (T k m _ I eq_refl) as [B1 B2]. change (ascii_of_N m) with (chr m). rewrite ord_chr by exact B1.
    apply N.eqb_neq. exact B2.
Qed.

Lemma reads_pointer : forall A (zero : A) un of, (forall z, reads (fun b => snd (un z b)) (fun x => of x z)) ->
  (forall z, of VNil z = None) -> forall old,
  reads (fun b => snd (read_pointer zero un old b)) (fun x => as_pointer zero of old x).
Proof.
  intros A zero un of R NN old b a r. unfold read_pointer. cbv zeta.
  set (o := match old with Some x => x | None => zero end).
  pose proof (reads_into _ _ Some (un o) (fun x => of x o) (R o)) as RI. split.
  - intros H. destruct b as [|c b].
    + apply RI in H as (x & p & B & P & V). exists x, p. split; [exact B|]. split; [exact P|].
      destruct x; exact V || (cbn [as_pointer]; rewrite NN in V; discriminate).
    + destruct (ord c =? 192) eqn:E.
      * cmp. injection H as <- <-. exists VNil, [c]. rewrite (of_ord _ _ E). repeat split; constructor.
      * apply RI in H as (x & p & B & P & V). exists x, p. split; [exact B|]. split; [exact P|].
        destruct x; exact V || (cbn [as_pointer]; rewrite NN in V; discriminate).
  - intros (x & p & -> & P & V). pose proof (packs_nil_head x p r P) as HN.
    assert (NE : p ++ r <> []).
    { pose proof (packs_nonempty _ _ P). destruct p; [cbn in *; lia|discriminate]. }
    assert (O : (x = VNil /\ a = None) \/ (x <> VNil /\ snd (into Some (un o (p ++ r))) = Some (a, r))).
    { destruct x; try (right; split; [discriminate|apply RI; eexists; exists p; split; [reflexivity|split; [exact P|exact V]]]).
      left. injection V as <-. auto. }
    destruct O as [[-> ->]|[NV O]].
    + inversion P; subst. reflexivity.
    + destruct (p ++ r) as [|c q] eqn:PR; [congruence|]. rewrite HN. destruct x; try exact O. congruence.
Qed.

Lemma reads_ext : forall A (rd rd' : bytes -> option (A * bytes)) as_ as', (forall b, rd b = rd' b) -> (forall x, as_ x = as' x) ->
  reads rd as_ -> reads rd' as'.
Proof.
  intros A rd rd' as_ as' E1 E2 R b a r. rewrite <- E1, (R b a r).
  split; intros (x & p & B & P & V); exists x, p; rewrite ?E2 in *; auto.
Qed.

Lemma ap_none_r : forall A B (f : option (A -> B)), ap f None = None.
Proof. intros A B [f|]; reflexivity. Qed.

Lemma str_eqb_true : forall a b, str_eqb a b = true -> a = b.
Proof. intros a b H. unfold str_eqb in H. destruct (str_eq_dec a b); congruence. Qed.

(* --- what the writers write --- *)

Lemma packs_bool : forall b, packs (VBool b) (app_bool b).
Proof. intros []; constructor. Qed.

Lemma be_holds : forall k n, n < 2 ^ (8 * N.of_nat k) -> number (be k n) = n.
Proof. intros. rewrite number_be. apply N.mod_small. assumption. Qed.

Lemma packs_float : forall n, fits_uint 64 n -> packs (VFloat n) (app_float n).
Proof.
  intros n H. unfold app_float. rewrite <- (be_holds 8 n H) at 1. constructor. apply be_length.
Qed.

Lemma packs_uint : forall n, fits_uint 64 n -> packs (VInt (Z.of_N n)) (app_uint n).
Proof.
  intros n H. unfold fits_uint in H. constructor. unfold app_uint.
  assert (S1 : forall k m, In (k, m) [(1%nat, 0xcc); (2%nat, 0xcd); (4%nat, 0xce); (8%nat, 0xcf)] ->
     n < 2 ^ (8 * N.of_nat k) -> int_bytes (Z.of_N n) (chr m :: be k n)).
  { intros k m I F. rewrite <- (be_holds k n F) at 1. eapply I_unsigned; [exact I|apply be_length]. }
  ifs; [apply I_pos; lia|]. ifs; [apply (S1 1%nat); [cbn; auto|assumption]|].
  ifs; [apply (S1 2%nat); [cbn; auto|assumption]|]. ifs; [apply (S1 4%nat); [cbn; auto|assumption]|].
  apply (S1 8%nat); [cbn; auto|exact H].
Qed.

Lemma two_be : forall k z, (1 <= k)%nat -> fits_int (8 * Z.of_nat k) z ->
  two (be k (Z.to_N (z mod 2 ^ (8 * Z.of_nat k)))) = z.
Proof.
  intros k z K F. unfold fits_int in F. unfold two. cbv zeta. rewrite be_length.
  assert (Q : (2 ^ (8 * Z.of_nat k) = 2 * 2 ^ (8 * Z.of_nat k - 1))%Z).
  { rewrite <- Z.pow_succ_r by lia. f_equal. lia. }
  assert (Q3 : (0 < 2 ^ (8 * Z.of_nat k - 1))%Z) by (apply Z.pow_pos_nonneg; lia).
  set (P := (2 ^ (8 * Z.of_nat k - 1))%Z) in *.
  assert (B : (0 <= z mod 2 ^ (8 * Z.of_nat k) < 2 ^ (8 * Z.of_nat k))%Z) by (apply Z.mod_pos_bound; lia).
  assert (E : 2 ^ (8 * N.of_nat k) = Z.to_N (2 ^ (8 * Z.of_nat k))).
  { rewrite Z2N.inj_pow by lia. change (Z.to_N 2) with 2. f_equal. lia. }
  rewrite be_holds by (rewrite E; lia). rewrite Z2N.id by lia. rewrite Q in *.
  destruct (Z_lt_le_dec z 0) as [L|L].
  - replace (z mod (2 * P))%Z with (z + 2 * P)%Z.
    + destruct (z + 2 * P <? P)%Z eqn:C; cmp; lia.
    + symmetry. rewrite <- (Z.mod_add z 1) by lia. rewrite Z.mul_1_l. apply Z.mod_small. lia.
  - rewrite Z.mod_small by lia. destruct (z <? P)%Z eqn:C; cmp; lia.
Qed.

Lemma packs_int : forall z, fits_int 64 z -> packs (VInt z) (app_int z).
Proof.
  intros z H. constructor.
  assert (S1 : forall k m, In (k, m) [(1%nat, 0xd0); (2%nat, 0xd1); (4%nat, 0xd2); (8%nat, 0xd3)] ->
     fits_int (8 * Z.of_nat k) z -> int_bytes z (chr m :: be k (Z.to_N (z mod 2 ^ (8 * Z.of_nat k))))).
  { intros k m I F. rewrite <- (two_be k z) at 1; [|cbn [In] in I; repeat destruct I as [I|I]; try contradiction; injection I as <- <-; lia|exact F].
    eapply I_signed; [exact I|apply be_length]. }
  unfold app_int. cbv zeta.
  destruct (0 <=? z)%Z eqn:E0; cmp.
  - destruct (z <=? 127)%Z eqn:E1; cmp.
    { rewrite <- (Z2N.id z) at 1 by lia. constructor. lia. }
    destruct (z <=? 32767)%Z eqn:E2; cmp; [apply (S1 2%nat); [cbn; auto|unfold fits_int; change (2 ^ (8 * Z.of_nat 2 - 1))%Z with 32768%Z; lia]|].
    destruct (z <=? 2147483647)%Z eqn:E3; cmp; [apply (S1 4%nat); [cbn; auto|unfold fits_int; change (2 ^ (8 * Z.of_nat 4 - 1))%Z with 2147483648%Z; lia]|].
    apply (S1 8%nat); [cbn; auto|exact H].
  - destruct (-32 <=? z)%Z eqn:E1; cmp.
    { assert (M : (z mod 2 ^ 8 = z + 256)%Z).
      { change (2 ^ 8)%Z with 256%Z. rewrite <- (Z.mod_add z 1) by lia. rewrite Z.mul_1_l. apply Z.mod_small. lia. }
      rewrite M. replace z with (Z.of_N (Z.to_N (z + 256)) - 256)%Z at 1 by lia. constructor. lia. }
    destruct (-128 <=? z)%Z eqn:E2; cmp; [apply (S1 1%nat); [cbn; auto|unfold fits_int; change (2 ^ (8 * Z.of_nat 1 - 1))%Z with 128%Z; lia]|].
    destruct (-32768 <=? z)%Z eqn:E3; cmp; [apply (S1 2%nat); [cbn; auto|unfold fits_int; change (2 ^ (8 * Z.of_nat 2 - 1))%Z with 32768%Z; lia]|].
    destruct (-2147483648 <=? z)%Z eqn:E4; cmp; [apply (S1 4%nat); [cbn; auto|unfold fits_int; change (2 ^ (8 * Z.of_nat 4 - 1))%Z with 2147483648%Z; lia]|].
    apply (S1 8%nat); [cbn; auto|exact H].
Qed.

Lemma fits_wider : forall b z, (1 <= b <= 64)%Z -> fits_int b z -> fits_int 64 z.
Proof.
  intros b z B F. unfold fits_int in *.
  assert ((2 ^ (b - 1) <= 2 ^ (64 - 1))%Z) by (apply Z.pow_le_mono_r; lia). lia.
Qed.

Lemma fits_uwider : forall b n, b <= 64 -> fits_uint b n -> fits_uint 64 n.
Proof. intros b n B F. unfold fits_uint in *. eapply N.lt_le_trans; [exact F|]. apply N.pow_le_mono_r; lia. Qed.

Lemma packs_text : forall s, fits_text s -> packs (VText s) (app_string s).
Proof.
  intros s H. unfold fits_text in H. unfold app_string. constructor.
  assert (S1 : forall k m, In (k, m) [(1%nat, 0xd9); (2%nat, 0xda); (4%nat, 0xdb)] -> len s < 2 ^ (8 * N.of_nat k) ->
    text_head (len s) (chr m :: be k (len s))).
  { intros k m I F. rewrite <- (be_holds k (len s) F) at 1. apply (H_large _ _ _ k m); [exact I|apply be_length]. }
  ifs; [constructor; assumption|]. ifs; [apply (S1 1%nat); [cbn; auto|assumption]|].
  ifs; [apply (S1 2%nat); [cbn; auto|assumption]|]. apply (S1 4%nat); [cbn; auto|assumption].
Qed.

Lemma packs_texts : forall l, fits_texts l -> packs (texts_value l) (app_strings l).
Proof.
  intros l [L F]. unfold texts_value, app_strings. rewrite N.mod_small by exact L. constructor.
  - replace (len (map VText l)) with (len l) by (unfold len; rewrite map_length; reflexivity).
    assert (S1 : forall k m, In (k, m) [(2%nat, 0xdc); (4%nat, 0xdd)] -> len l < 2 ^ (8 * N.of_nat k) ->
      arr_head (len l) (chr m :: be k (len l))).
    { intros k m I B. rewrite <- (be_holds k (len l) B) at 1. apply (H_large _ _ _ k m); [exact I|apply be_length]. }
    unfold app_array. ifs; [constructor; assumption|]. ifs; [apply (S1 2%nat); [cbn; auto|assumption]|].
    apply (S1 4%nat); [cbn; auto|assumption].
  - clear L. induction F as [|s l FS F IH]; cbn [map List.concat]; constructor; [apply packs_text; exact FS|exact IH].
Qed.

Lemma packs_pointer : forall A (f : A -> value) marshal (ok : A -> Prop) p, (forall x, ok x -> packs (f x) (marshal x)) ->
  fits_pointer ok p -> packs (pointer_value f p) (app_pointer marshal p).
Proof. intros A f marshal ok [x|] H F; [apply H; exact F|constructor]. Qed.

Lemma packs_named : forall n x v l c, fits_text (s2l n) -> packs x v -> packs_all (flat l) c ->
  packs_all (flat (named n x :: l)) (put n v ++ c).
Proof.
  intros n x v l c F P A. unfold put, named. cbn [flat]. rewrite <- app_assoc.
  apply P_more; [apply packs_text; exact F|]. apply P_more; [exact P|exact A].
Qed.

Lemma packs_last : forall n x v, fits_text (s2l n) -> packs x v -> packs_all (flat [named n x]) (put n v).
Proof. intros. rewrite <- (app_nil_r (put n v)). apply packs_named; auto. constructor. Qed.

Lemma packs_record : forall l b n, len l = n -> n < 16 -> packs_all (flat l) b -> packs (VMap l) (chr (128 + n) :: b).
Proof.
  intros l b n <- L A. change (chr (128 + len l) :: b) with ([chr (128 + len l)] ++ b).
  constructor; [constructor; exact L|exact A].
Qed.

(* --- the values give back what was written --- *)

Lemma as_int_back : forall bits z, fits_int bits z -> as_int bits (VInt z) = Some z.
Proof.
  intros bits z F. unfold fits_int in F. cbn [as_int].
  destruct ((- 2 ^ (bits - 1) <=? z) && (z <? 2 ^ (bits - 1)))%Z eqn:E; [reflexivity|].
  cmp. destruct E; cmp; lia.
Qed.

Lemma as_uint_back : forall bits n, fits_uint bits n -> as_uint bits (uint_value n) = Some n.
Proof.
  intros bits n F. unfold fits_uint in F. unfold uint_value. cbn [as_uint]. rewrite N2Z.id.
  assert (Q : Z.of_N (2 ^ bits) = (2 ^ Z.of_N bits)%Z) by (rewrite N2Z.inj_pow; reflexivity).
  destruct ((0 <=? Z.of_N n) && (Z.of_N n <? 2 ^ Z.of_N bits))%Z eqn:G; [reflexivity|].
  cmp. destruct G as [G|G]; cmp; lia.
Qed.

Lemma as_texts_back : forall l, as_texts (texts_value l) = Some l.
Proof.
  intros l. unfold texts_value. cbn [as_texts]. induction l as [|s l IH]; [reflexivity|].
  cbn [map all_texts]. rewrite IH. reflexivity.
Qed.

Lemma as_pointer_back : forall A (zero : A) of f (ok : A -> Prop) p old,
  (forall x o, ok x -> of (f x) o = Some x) -> (forall x, f x <> VNil) -> fits_pointer ok p ->
  as_pointer zero of old (pointer_value f p) = Some p.
Proof.
  intros A zero of f ok [x|] old H NN F; [|reflexivity]. cbn [pointer_value fits_pointer] in *.
  unfold as_pointer. rewrite (H x) by exact F. specialize (NN x). destruct (f x); try reflexivity. congruence.
Qed.

(* --- what any bytes may give: values in their ranges --- *)

Definition gives {A} (rd : bytes -> option (A * bytes)) (ok : A -> Prop) : Prop :=
  forall b a r, rd b = Some (a, r) -> ok a.

Lemma gives_int : forall bits, gives (read_int bits) (fits_int bits).
Proof.
  intros bits b z r H. unfold read_int in H. destruct (read_int64 b) as [[y q]|]; [|discriminate].
  destruct ((- 2 ^ (bits - 1) <=? y) && (y <? 2 ^ (bits - 1)))%Z eqn:E; [|discriminate].
  injection H as <- <-. unfold fits_int. cmp. lia.
Qed.

Lemma gives_uint : forall bits, gives (read_uint bits) (fits_uint bits).
Proof.
  intros bits b z r H. unfold read_uint in H. destruct (read_uint64 b) as [[y q]|]; [|discriminate].
  destruct (y <? 2 ^ bits) eqn:E; [|discriminate]. injection H as <- <-. unfold fits_uint. cmp. exact E.
Qed.

Lemma gives_float : forall widen, (forall n, widen n < 2 ^ 64) -> gives (read_float widen) (fits_uint 64).
Proof.
  intros widen W b z r H. apply reads_float in H as (x & p & -> & P & V).
  destruct x; try discriminate; injection V as <-; [|apply W].
  inversion P as [| | | |b L| | | | | | |]; subst. unfold fits_uint. pose proof (number_lt b) as NL. rewrite L in NL. exact NL.
Qed.

Lemma head_count : forall base max marks n h, head base max marks n h -> max <= 2 ^ 32 ->
  (forall k m, In (k, m) marks -> (k <= 4)%nat) -> n < 2 ^ 32.
Proof.
  intros base max marks n h H M K. destruct H as [n H|k m b I L]; [lia|].
  pose proof (number_lt b) as NL. rewrite L in NL. specialize (K k m I).
  eapply N.lt_le_trans; [exact NL|]. apply N.pow_le_mono_r; lia.
Qed.

Lemma gives_text : gives read_string fits_text.
Proof.
  intros b s r H. apply read_string_some in H as (h & T & _). unfold fits_text.
  eapply head_count; [exact T|vm_compute; discriminate|].
  intros k m I. cbn [In] in I. repeat destruct I as [I|I]; try contradiction; injection I as <- <-; lia.
Qed.

Lemma gives_texts : forall old, gives (fun b => snd (read_strings old b)) fits_texts.
Proof.
  intros old b l r H. unfold read_strings in H. destruct (read_array b) as [[n q]|] eqn:R; [|discriminate].
  cbn [snd] in H. apply read_array_some in R as (h & T & _).
  assert (NL : n < 2 ^ 32).
  { eapply head_count; [exact T|vm_compute; discriminate|].
    intros k m I. cbn [In] in I. repeat destruct I as [I|I]; try contradiction; injection I as <- <-; lia. }
  clear T h. revert H. generalize (List.length q) as fuel. intros fuel H.
  assert (G : len l = n /\ Forall fits_text l).
  { clear NL. revert n q l r H. induction fuel as [|fuel IH]; intros n q l r H; cbn [strings] in H;
      (destruct (n =? 0) eqn:E; cmp; [injection H as <- <-; subst; split; [reflexivity|constructor]|]); [discriminate|].
    destruct (read_string q) as [[s q1]|] eqn:RS; [|discriminate].
    destruct (strings fuel (n - 1) q1) as [[t q2]|] eqn:S1; [|discriminate]. injection H as <- <-.
    apply IH in S1 as [L F]. apply gives_text in RS. rewrite len_cons. split; [lia|constructor; assumption]. }
  destruct G as [L F]. split; [rewrite L; exact NL|exact F].
Qed.

Lemma gives_into : forall A B (set : A -> B) (x : bytes -> out A) (ok : A -> Prop) (ok' : B -> Prop),
  gives (fun b => snd (x b)) ok -> (forall a, ok a -> ok' (set a)) -> gives (fun b => snd (into set (x b))) ok'.
Proof.
  intros A B set x ok ok' G K b y r H. unfold into in H. rewrite snd_bind in H.
  destruct (snd (x b)) as [[a q]|] eqn:E; [|discriminate]. injection H as <- <-. apply K. exact (G b a q E).
Qed.

Lemma gives_pointer : forall A (zero : A) un (ok : A -> Prop), (forall z, ok z -> gives (fun b => snd (un z b)) ok) -> ok zero ->
  forall old, fits_pointer ok old -> gives (fun b => snd (read_pointer zero un old b)) (fits_pointer ok).
Proof.
  intros A zero un ok G Z0 old F b p r H. unfold read_pointer in H. cbv zeta in H.
  set (o := match old with Some x => x | None => zero end) in H.
  assert (O : ok o) by (unfold o; destruct old; assumption). clearbody o.
  assert (GI := gives_into _ _ Some (un o) ok (fits_pointer ok) (G o O) (fun a H => H)).
  destruct b as [|c b]; [exact (GI _ _ _ H)|]. destruct (ord c =? 192); [|exact (GI _ _ _ H)].
  injection H as <- <-. exact I.
Qed.

Lemma gives_unknown : forall A (z : A) (ok : A -> Prop), ok z -> gives (fun b => snd (unknown z b)) ok.
Proof.
  intros A z ok O b a r H. unfold unknown, plain in H. cbn [snd] in H. destruct (skip b); [|discriminate].
  injection H as <- <-. exact O.
Qed.

Lemma gives_record : forall A (field : str -> A -> bytes -> out A) (ok : A -> Prop),
  (forall k z, ok z -> gives (fun b => snd (field k z b)) ok) -> forall z, ok z -> gives (fun b => snd (unmarshal field z b)) ok.
Proof.
  intros A field ok G z O b a r H. unfold unmarshal in H. destruct (read_map b) as [[n q]|]; [|discriminate].
  revert H. generalize (List.length q) as fuel. intros fuel H. revert n z q a r O H.
  induction fuel as [|fuel IH]; intros n z q a r O H; cbn [fields] in H;
    (destruct (n =? 0); [injection H as <- <-; exact O|]); [discriminate|].
  destruct (read_key q) as [[k q1]|]; [|discriminate]. rewrite snd_bind in H.
  destruct (snd (field k z q1)) as [[z' q2]|] eqn:E; [|discriminate].
  exact (IH _ _ _ _ _ (G k z O _ _ _ E) H).
Qed.

Lemma gives_any : forall A (rd : bytes -> option (A * bytes)), gives rd (fun _ => True).
Proof. intros A rd b a r H. exact I. Qed.

(* --- room for strings: no more than bytes, unless the reading fails --- *)

Definition spare {A} (x : bytes -> out A) : Prop :=
  forall b a r, snd (x b) = Some (a, r) -> fst (x b) + len r <= len b.

Lemma spare_plain : forall A (rd : bytes -> option (A * bytes)) as_, reads rd as_ -> spare (fun b => plain (rd b)).
Proof.
  intros A rd as_ R b a r H. cbn [fst snd plain] in *. apply R in H as (x & p & -> & _). rewrite len_app. lia.
Qed.

Lemma spare_strings : forall old, spare (read_strings old).
Proof.
  intros old b a r H. unfold read_strings in *. destruct (read_array b) as [[n q]|] eqn:R; [|discriminate].
  cbn [fst snd] in *. apply read_array_some in R as (h & _ & ->). apply strings_some in H as (xs & p & -> & A & _ & L).
  rewrite !len_app. assert (G : len xs <= len p).
  { clear -A. revert p A. induction xs as [|x xs IH]; intros p A; [rewrite len_nil; lia|].
    inversion A as [|x' xs' b c P A']; subst. rewrite len_cons, len_app. apply IH in A'.
    apply packs_nonempty in P. unfold len at 2. lia. }
  destruct (n <=? len old); lia.
Qed.

Lemma spare_bind : forall A B (x : bytes -> out A) (f : A -> bytes -> out B), spare x -> (forall a, spare (f a)) ->
  spare (fun b => bind (x b) f).
Proof.
  intros A B x f SX SF b y r H. specialize (SX b). destruct (x b) as [n [[a q]|]] eqn:E; [|discriminate].
  cbn [bind fst snd] in *. specialize (SX a q eq_refl). specialize (SF a q). destruct (f a q) as [m o] eqn:F.
  cbn [fst snd] in *. specialize (SF y r H). lia.
Qed.

Lemma spare_into : forall A B (set : A -> B) (x : bytes -> out A), spare x -> spare (fun b => into set (x b)).
Proof.
  intros A B set x S1. unfold into. apply spare_bind; [exact S1|]. intros a b y r H. cbn [fst snd] in *.
  injection H as <- <-. lia.
Qed.

Lemma spare_pointer : forall A (zero : A) un, (forall z, spare (un z)) -> forall old, spare (read_pointer zero un old).
Proof.
  intros A zero un S1 old b a r H. unfold read_pointer in *. cbv zeta in *.
  set (o := match old with Some x => x | None => zero end) in *. clearbody o.
  assert (SI := spare_into _ _ Some (un o) (S1 o)).
  destruct b as [|c b]; [exact (SI _ _ _ H)|]. destruct (ord c =? 192); [|exact (SI _ _ _ H)].
  cbn [fst snd] in *. injection H as <- <-. rewrite len_cons. lia.
Qed.

Lemma spare_unknown : forall A (z : A), spare (unknown z).
Proof.
  intros A z b a r H. pose proof (proj1 (reads_unknown A z b a r) H) as (x & p & -> & _).
  unfold unknown, plain. cbn [fst]. rewrite len_app. lia.
Qed.

Lemma spare_record : forall A (field : str -> A -> bytes -> out A), (forall k z, spare (field k z)) ->
  forall z, spare (unmarshal field z).
Proof.
  intros A field S1 z b a r H. unfold unmarshal in *. destruct (read_map b) as [[n q]|] eqn:M; [|discriminate].
  apply read_map_some in M as (h & _ & ->). rewrite len_app.
  revert H. generalize (List.length q) as fuel. intros fuel H.
  cut (fst (fields field fuel n z q) + len r <= len q); [lia|]. clear h. revert n z q a r H.
  induction fuel as [|fuel IH]; intros n z q a r H; cbn [fields] in *;
    (destruct (n =? 0); [cbn [fst snd] in *; injection H as <- <-; lia|]); [discriminate|].
  destruct (read_key q) as [[k q1]|] eqn:K; [|discriminate].
  apply reads_name in K as (kx & p & -> & _). rewrite len_app.
  cut (fst (bind (field k z q1) (fun z r => fields field fuel (n - 1) z r)) + len r <= len q1); [lia|].
  rewrite snd_bind in H. specialize (S1 k z q1).
  destruct (field k z q1) as [m [[z' q2]|]]; [|discriminate]. cbn [fst snd bind] in *.
  specialize (S1 z' q2 eq_refl). specialize (IH (n - 1) z' q2 a r H).
  destruct (fields field fuel (n - 1) z' q2) as [m' o]. cbn [fst] in *. lia.
Qed.

(* --- each record --- *)

Ltac closed_names :=
  repeat match goal with
    | |- context [str_eqb (s2l ?a) (s2l ?b)] =>
        let v := eval vm_compute in (str_eqb (s2l a) (s2l b)) in change (str_eqb (s2l a) (s2l b)) with v
    end; cbv iota.

Ltac kind :=
  match goal with
  | |- reads (fun b => snd (into _ (read_pointer _ _ _ b))) _ => idtac
  | |- _ => first
      [ apply reads_unknown
      | apply reads_into; first
          [ exact reads_bool | apply reads_int; lia | apply reads_uint | apply reads_text | apply reads_float
          | apply reads_texts ] ]
  end.

(* The fields one after another, and the slots side by side. *)
Ltac slots_tac set :=
  let k := fresh "k" in let x := fresh "x" in let fs := fresh "fs" in let IH := fresh "IH" in
  intros fs; induction fs as [|[k x] fs IH]; intros z;
  [destruct z; reflexivity|];
  cbn [lay slot]; unfold set;
  repeat match goal with
    | |- context [if str_eqb k ?n then option_map _ _ else _] =>
        let E := fresh "E" in destruct (str_eqb k n) eqn:E;
        [apply str_eqb_true in E; subst k; closed_names; unfold only;
         match goal with
         | |- context [option_map _ ?o] => destruct o; cbn [option_map]
         end; [rewrite IH; reflexivity|repeat rewrite ap_none_r; reflexivity]|]
    end; rewrite IH; reflexivity.

Definition extra_set (k : str) (x : value) (z : extra) : option extra :=
  if str_eqb k (s2l "total") then option_map (fun x => MkExtra x (x_first z) (x_last z)) (as_int 64 x)
  else if str_eqb k (s2l "first_version") then option_map (fun x => MkExtra (x_total z) x (x_last z)) (as_int 64 x)
  else if str_eqb k (s2l "last_version") then option_map (fun x => MkExtra (x_total z) (x_first z) x) (as_int 64 x)
  else Some z.

Lemma extra_slots : forall fs z, lay extra_set fs z = (Some MkExtra
    <*> slot (only (as_int 64)) "total" fs (x_total z)
    <*> slot (only (as_int 64)) "first_version" fs (x_first z)
    <*> slot (only (as_int 64)) "last_version" fs (x_last z)).
Proof. slots_tac extra_set. Qed.

Lemma extra_is_field : is_field extra_field extra_set.
Proof.
  intros k z. unfold extra_field, extra_set.
  destruct (str_eqb k (s2l "total")); [exact (reads_into _ _ (fun x => MkExtra x (x_first z) (x_last z)) (fun b => plain _) _ (reads_int 64 ltac:(lia)))|].
  destruct (str_eqb k (s2l "first_version")); [exact (reads_into _ _ (fun x => MkExtra (x_total z) x (x_last z)) (fun b => plain _) _ (reads_int 64 ltac:(lia)))|].
  destruct (str_eqb k (s2l "last_version")); [exact (reads_into _ _ (fun x => MkExtra (x_total z) (x_first z) x) (fun b => plain _) _ (reads_int 64 ltac:(lia)))|].
  apply reads_unknown.
Qed.

Theorem reads_extra : forall z, reads (fun b => snd (unmarshal extra_field z b)) (fun x => extra_of x z).
Proof.
  intros z. refine (reads_ext _ _ _ _ _ (fun _ => eq_refl) _ (reads_record _ _ _ (extra_is_field) z)).
  intros x. unfold extra_of, meaning. destruct x as [| | | | | | | | |l]; try reflexivity.
  destruct (names_of l) as [fs|]; [|reflexivity]. apply extra_slots.
Qed.

Lemma extra_packs : forall z, extra_ok z -> packs (extra_value z) (marshal_extra z).
Proof.
  intros z O. unfold extra_ok in O. decompose [and] O. clear O.
  unfold extra_value, marshal_extra. apply (packs_record _ _ 3); [reflexivity|reflexivity|].
  apply packs_named; [reflexivity|apply packs_int; assumption|].
  apply packs_named; [reflexivity|apply packs_int; assumption|].
  apply packs_last; [reflexivity|apply packs_int; assumption]. 
Qed.

Lemma extra_back : forall z old, extra_ok z -> extra_of (extra_value z) old = Some z.
Proof.
  intros z old O. unfold extra_ok in O. decompose [and] O. clear O.
  unfold extra_of, extra_value, meaning, named. cbn [names_of]. rewrite <- (extra_slots). cbn [lay]. unfold extra_set. closed_names.
  rewrite as_int_back by assumption. cbn [option_map x_total x_first x_last].
  rewrite as_int_back by assumption. cbn [option_map x_total x_first x_last].
  rewrite as_int_back by assumption. cbn [option_map x_total x_first x_last].
  destruct z; reflexivity.
Qed.

Lemma zero_extra_ok : extra_ok zero_extra.
Proof. unfold extra_ok, zero_extra, fits_int, fits_uint, fits_text, fits_texts, fits_pointer, len. cbn. repeat split; try lia; constructor. Qed.

Lemma gives_extra : forall z, extra_ok z -> gives (fun b => snd (unmarshal extra_field z b)) extra_ok.
Proof.
  apply gives_record. intros k z O. unfold extra_field.
  destruct (str_eqb k (s2l "total")); [refine (gives_into _ _ (fun x => MkExtra x (x_first z) (x_last z)) (fun b => plain _) _ _ (gives_int 64) _); intros y Y; unfold extra_ok in *; cbn [x_total x_first x_last]; decompose [and] O; repeat (split; [assumption|]); assumption|].
  destruct (str_eqb k (s2l "first_version")); [refine (gives_into _ _ (fun x => MkExtra (x_total z) x (x_last z)) (fun b => plain _) _ _ (gives_int 64) _); intros y Y; unfold extra_ok in *; cbn [x_total x_first x_last]; decompose [and] O; repeat (split; [assumption|]); assumption|].
  destruct (str_eqb k (s2l "last_version")); [refine (gives_into _ _ (fun x => MkExtra (x_total z) (x_first z) x) (fun b => plain _) _ _ (gives_int 64) _); intros y Y; unfold extra_ok in *; cbn [x_total x_first x_last]; decompose [and] O; repeat (split; [assumption|]); assumption|].
  apply gives_unknown. exact O.
Qed.

Lemma spare_extra : forall z, spare (unmarshal extra_field z).
Proof.
  apply spare_record. intros k z. unfold extra_field.
  destruct (str_eqb k (s2l "total")); [apply spare_into; exact (spare_plain _ _ _ (reads_int 64 ltac:(lia)))|].
  destruct (str_eqb k (s2l "first_version")); [apply spare_into; exact (spare_plain _ _ _ (reads_int 64 ltac:(lia)))|].
  destruct (str_eqb k (s2l "last_version")); [apply spare_into; exact (spare_plain _ _ _ (reads_int 64 ltac:(lia)))|].
  apply spare_unknown.
Qed.

Definition metadata_set (k : str) (x : value) (z : metadata) : option metadata :=
  if str_eqb k (s2l "Extra") then option_map (fun x => MkMetadata x (m_name z) (m_bucket z) (m_create z) (m_update z)) (as_pointer zero_extra extra_of (m_extra z) x)
  else if str_eqb k (s2l "name") then option_map (fun x => MkMetadata (m_extra z) x (m_bucket z) (m_create z) (m_update z)) (as_text x)
  else if str_eqb k (s2l "bucket") then option_map (fun x => MkMetadata (m_extra z) (m_name z) x (m_create z) (m_update z)) (as_text x)
  else if str_eqb k (s2l "create_time") then option_map (fun x => MkMetadata (m_extra z) (m_name z) (m_bucket z) x (m_update z)) (as_int 64 x)
  else if str_eqb k (s2l "update_time") then option_map (fun x => MkMetadata (m_extra z) (m_name z) (m_bucket z) (m_create z) x) (as_int 64 x)
  else Some z.

Lemma metadata_slots : forall fs z, lay metadata_set fs z = (Some MkMetadata
    <*> slot (as_pointer zero_extra extra_of) "Extra" fs (m_extra z)
    <*> slot (only as_text) "name" fs (m_name z)
    <*> slot (only as_text) "bucket" fs (m_bucket z)
    <*> slot (only (as_int 64)) "create_time" fs (m_create z)
    <*> slot (only (as_int 64)) "update_time" fs (m_update z)).
Proof. slots_tac metadata_set. Qed.

Lemma metadata_is_field : is_field metadata_field metadata_set.
Proof.
  intros k z. unfold metadata_field, metadata_set.
  destruct (str_eqb k (s2l "Extra")); [exact (reads_into _ _ (fun x => MkMetadata x (m_name z) (m_bucket z) (m_create z) (m_update z)) _ _ (reads_pointer _ _ _ _ reads_extra (fun _ => eq_refl) _))|].
  destruct (str_eqb k (s2l "name")); [exact (reads_into _ _ (fun x => MkMetadata (m_extra z) x (m_bucket z) (m_create z) (m_update z)) (fun b => plain _) _ reads_text)|].
  destruct (str_eqb k (s2l "bucket")); [exact (reads_into _ _ (fun x => MkMetadata (m_extra z) (m_name z) x (m_create z) (m_update z)) (fun b => plain _) _ reads_text)|].
  destruct (str_eqb k (s2l "create_time")); [exact (reads_into _ _ (fun x => MkMetadata (m_extra z) (m_name z) (m_bucket z) x (m_update z)) (fun b => plain _) _ (reads_int 64 ltac:(lia)))|].
  destruct (str_eqb k (s2l "update_time")); [exact (reads_into _ _ (fun x => MkMetadata (m_extra z) (m_name z) (m_bucket z) (m_create z) x) (fun b => plain _) _ (reads_int 64 ltac:(lia)))|].
  apply reads_unknown.
Qed.

Theorem reads_metadata : forall z, reads (fun b => snd (unmarshal metadata_field z b)) (fun x => metadata_of x z).
Proof.
  intros z. refine (reads_ext _ _ _ _ _ (fun _ => eq_refl) _ (reads_record _ _ _ (metadata_is_field) z)).
  intros x. unfold metadata_of, meaning. destruct x as [| | | | | | | | |l]; try reflexivity.
  destruct (names_of l) as [fs|]; [|reflexivity]. apply metadata_slots.
Qed.

Lemma metadata_packs : forall z, metadata_ok z -> packs (metadata_value z) (marshal_metadata z).
Proof.
  intros z O. unfold metadata_ok in O. decompose [and] O. clear O.
  unfold metadata_value, marshal_metadata. apply (packs_record _ _ 5); [reflexivity|reflexivity|].
  apply packs_named; [reflexivity|eapply (packs_pointer _ _ _ extra_ok); [exact extra_packs|assumption]|].
  apply packs_named; [reflexivity|apply packs_text; assumption|].
  apply packs_named; [reflexivity|apply packs_text; assumption|].
  apply packs_named; [reflexivity|apply packs_int; assumption|].
  apply packs_last; [reflexivity|apply packs_int; assumption]. 
Qed.

Lemma metadata_back : forall z old, metadata_ok z -> metadata_of (metadata_value z) old = Some z.
Proof.
  intros z old O. unfold metadata_ok in O. decompose [and] O. clear O.
  unfold metadata_of, metadata_value, meaning, named. cbn [names_of]. rewrite <- (metadata_slots). cbn [lay]. unfold metadata_set. closed_names.
  rewrite (as_pointer_back _ _ _ extra_value extra_ok) by (exact extra_back || discriminate || assumption). cbn [option_map m_extra m_name m_bucket m_create m_update].
  cbn [as_bool as_text as_float]. cbn [option_map m_extra m_name m_bucket m_create m_update].
  cbn [as_bool as_text as_float]. cbn [option_map m_extra m_name m_bucket m_create m_update].
  rewrite as_int_back by assumption. cbn [option_map m_extra m_name m_bucket m_create m_update].
  rewrite as_int_back by assumption. cbn [option_map m_extra m_name m_bucket m_create m_update].
  destruct z; reflexivity.
Qed.

Lemma zero_metadata_ok : metadata_ok zero_metadata.
Proof. unfold metadata_ok, zero_metadata, fits_int, fits_uint, fits_text, fits_texts, fits_pointer, len. cbn. repeat split; try lia; constructor. Qed.

Lemma gives_metadata : forall z, metadata_ok z -> gives (fun b => snd (unmarshal metadata_field z b)) metadata_ok.
Proof.
  apply gives_record. intros k z O. unfold metadata_field.
  destruct (str_eqb k (s2l "Extra")); [refine (gives_into _ _ (fun x => MkMetadata x (m_name z) (m_bucket z) (m_create z) (m_update z)) _ _ _ (gives_pointer _ _ _ _ gives_extra zero_extra_ok _ _) _); [unfold metadata_ok in O; decompose [and] O; assumption|]; intros y Y; unfold metadata_ok in *; cbn [m_extra m_name m_bucket m_create m_update]; decompose [and] O; repeat (split; [assumption|]); assumption|].
  destruct (str_eqb k (s2l "name")); [refine (gives_into _ _ (fun x => MkMetadata (m_extra z) x (m_bucket z) (m_create z) (m_update z)) (fun b => plain _) _ _ gives_text _); intros y Y; unfold metadata_ok in *; cbn [m_extra m_name m_bucket m_create m_update]; decompose [and] O; repeat (split; [assumption|]); assumption|].
  destruct (str_eqb k (s2l "bucket")); [refine (gives_into _ _ (fun x => MkMetadata (m_extra z) (m_name z) x (m_create z) (m_update z)) (fun b => plain _) _ _ gives_text _); intros y Y; unfold metadata_ok in *; cbn [m_extra m_name m_bucket m_create m_update]; decompose [and] O; repeat (split; [assumption|]); assumption|].
  destruct (str_eqb k (s2l "create_time")); [refine (gives_into _ _ (fun x => MkMetadata (m_extra z) (m_name z) (m_bucket z) x (m_update z)) (fun b => plain _) _ _ (gives_int 64) _); intros y Y; unfold metadata_ok in *; cbn [m_extra m_name m_bucket m_create m_update]; decompose [and] O; repeat (split; [assumption|]); assumption|].
  destruct (str_eqb k (s2l "update_time")); [refine (gives_into _ _ (fun x => MkMetadata (m_extra z) (m_name z) (m_bucket z) (m_create z) x) (fun b => plain _) _ _ (gives_int 64) _); intros y Y; unfold metadata_ok in *; cbn [m_extra m_name m_bucket m_create m_update]; decompose [and] O; repeat (split; [assumption|]); assumption|].
  apply gives_unknown. exact O.
Qed.

Lemma spare_metadata : forall z, spare (unmarshal metadata_field z).
Proof.
  apply spare_record. intros k z. unfold metadata_field.
  destruct (str_eqb k (s2l "Extra")); [apply spare_into; apply spare_pointer, spare_extra|].
  destruct (str_eqb k (s2l "name")); [apply spare_into; exact (spare_plain _ _ _ reads_text)|].
  destruct (str_eqb k (s2l "bucket")); [apply spare_into; exact (spare_plain _ _ _ reads_text)|].
  destruct (str_eqb k (s2l "create_time")); [apply spare_into; exact (spare_plain _ _ _ (reads_int 64 ltac:(lia)))|].
  destruct (str_eqb k (s2l "update_time")); [apply spare_into; exact (spare_plain _ _ _ (reads_int 64 ltac:(lia)))|].
  apply spare_unknown.
Qed.

Definition version_set (k : str) (x : value) (z : version) : option version :=
  if str_eqb k (s2l "compress") then option_map (fun x => MkVersion x (v_strategy z) (v_data z) (v_parity z) (v_shard z) (v_size z) (v_ts z) (v_sequence z) (v_hash z) (v_unique z) (v_locate z)) (as_bool x)
  else if str_eqb k (s2l "store_strategy") then option_map (fun x => MkVersion (v_compress z) x (v_data z) (v_parity z) (v_shard z) (v_size z) (v_ts z) (v_sequence z) (v_hash z) (v_unique z) (v_locate z)) (as_int 8 x)
  else if str_eqb k (s2l "data_shards") then option_map (fun x => MkVersion (v_compress z) (v_strategy z) x (v_parity z) (v_shard z) (v_size z) (v_ts z) (v_sequence z) (v_hash z) (v_unique z) (v_locate z)) (as_int 32 x)
  else if str_eqb k (s2l "parity_shards") then option_map (fun x => MkVersion (v_compress z) (v_strategy z) (v_data z) x (v_shard z) (v_size z) (v_ts z) (v_sequence z) (v_hash z) (v_unique z) (v_locate z)) (as_int 32 x)
  else if str_eqb k (s2l "shard_size") then option_map (fun x => MkVersion (v_compress z) (v_strategy z) (v_data z) (v_parity z) x (v_size z) (v_ts z) (v_sequence z) (v_hash z) (v_unique z) (v_locate z)) (as_int 64 x)
  else if str_eqb k (s2l "size") then option_map (fun x => MkVersion (v_compress z) (v_strategy z) (v_data z) (v_parity z) (v_shard z) x (v_ts z) (v_sequence z) (v_hash z) (v_unique z) (v_locate z)) (as_int 64 x)
  else if str_eqb k (s2l "ts") then option_map (fun x => MkVersion (v_compress z) (v_strategy z) (v_data z) (v_parity z) (v_shard z) (v_size z) x (v_sequence z) (v_hash z) (v_unique z) (v_locate z)) (as_int 64 x)
  else if str_eqb k (s2l "sequence") then option_map (fun x => MkVersion (v_compress z) (v_strategy z) (v_data z) (v_parity z) (v_shard z) (v_size z) (v_ts z) x (v_hash z) (v_unique z) (v_locate z)) (as_uint 64 x)
  else if str_eqb k (s2l "hash") then option_map (fun x => MkVersion (v_compress z) (v_strategy z) (v_data z) (v_parity z) (v_shard z) (v_size z) (v_ts z) (v_sequence z) x (v_unique z) (v_locate z)) (as_text x)
  else if str_eqb k (s2l "uniqueId") then option_map (fun x => MkVersion (v_compress z) (v_strategy z) (v_data z) (v_parity z) (v_shard z) (v_size z) (v_ts z) (v_sequence z) (v_hash z) x (v_locate z)) (as_text x)
  else if str_eqb k (s2l "locate") then option_map (fun x => MkVersion (v_compress z) (v_strategy z) (v_data z) (v_parity z) (v_shard z) (v_size z) (v_ts z) (v_sequence z) (v_hash z) (v_unique z) x) (as_texts x)
  else Some z.

Lemma version_slots : forall fs z, lay version_set fs z = (Some MkVersion
    <*> slot (only as_bool) "compress" fs (v_compress z)
    <*> slot (only (as_int 8)) "store_strategy" fs (v_strategy z)
    <*> slot (only (as_int 32)) "data_shards" fs (v_data z)
    <*> slot (only (as_int 32)) "parity_shards" fs (v_parity z)
    <*> slot (only (as_int 64)) "shard_size" fs (v_shard z)
    <*> slot (only (as_int 64)) "size" fs (v_size z)
    <*> slot (only (as_int 64)) "ts" fs (v_ts z)
    <*> slot (only (as_uint 64)) "sequence" fs (v_sequence z)
    <*> slot (only as_text) "hash" fs (v_hash z)
    <*> slot (only as_text) "uniqueId" fs (v_unique z)
    <*> slot (only as_texts) "locate" fs (v_locate z)).
Proof. slots_tac version_set. Qed.

Lemma version_is_field : is_field version_field version_set.
Proof.
  intros k z. unfold version_field, version_set.
  destruct (str_eqb k (s2l "compress")); [exact (reads_into _ _ (fun x => MkVersion x (v_strategy z) (v_data z) (v_parity z) (v_shard z) (v_size z) (v_ts z) (v_sequence z) (v_hash z) (v_unique z) (v_locate z)) (fun b => plain _) _ reads_bool)|].
  destruct (str_eqb k (s2l "store_strategy")); [exact (reads_into _ _ (fun x => MkVersion (v_compress z) x (v_data z) (v_parity z) (v_shard z) (v_size z) (v_ts z) (v_sequence z) (v_hash z) (v_unique z) (v_locate z)) (fun b => plain _) _ (reads_int 8 ltac:(lia)))|].
  destruct (str_eqb k (s2l "data_shards")); [exact (reads_into _ _ (fun x => MkVersion (v_compress z) (v_strategy z) x (v_parity z) (v_shard z) (v_size z) (v_ts z) (v_sequence z) (v_hash z) (v_unique z) (v_locate z)) (fun b => plain _) _ (reads_int 32 ltac:(lia)))|].
  destruct (str_eqb k (s2l "parity_shards")); [exact (reads_into _ _ (fun x => MkVersion (v_compress z) (v_strategy z) (v_data z) x (v_shard z) (v_size z) (v_ts z) (v_sequence z) (v_hash z) (v_unique z) (v_locate z)) (fun b => plain _) _ (reads_int 32 ltac:(lia)))|].
  destruct (str_eqb k (s2l "shard_size")); [exact (reads_into _ _ (fun x => MkVersion (v_compress z) (v_strategy z) (v_data z) (v_parity z) x (v_size z) (v_ts z) (v_sequence z) (v_hash z) (v_unique z) (v_locate z)) (fun b => plain _) _ (reads_int 64 ltac:(lia)))|].
  destruct (str_eqb k (s2l "size")); [exact (reads_into _ _ (fun x => MkVersion (v_compress z) (v_strategy z) (v_data z) (v_parity z) (v_shard z) x (v_ts z) (v_sequence z) (v_hash z) (v_unique z) (v_locate z)) (fun b => plain _) _ (reads_int 64 ltac:(lia)))|].
  destruct (str_eqb k (s2l "ts")); [exact (reads_into _ _ (fun x => MkVersion (v_compress z) (v_strategy z) (v_data z) (v_parity z) (v_shard z) (v_size z) x (v_sequence z) (v_hash z) (v_unique z) (v_locate z)) (fun b => plain _) _ (reads_int 64 ltac:(lia)))|].
  destruct (str_eqb k (s2l "sequence")); [exact (reads_into _ _ (fun x => MkVersion (v_compress z) (v_strategy z) (v_data z) (v_parity z) (v_shard z) (v_size z) (v_ts z) x (v_hash z) (v_unique z) (v_locate z)) (fun b => plain _) _ (reads_uint 64))|].
  destruct (str_eqb k (s2l "hash")); [exact (reads_into _ _ (fun x => MkVersion (v_compress z) (v_strategy z) (v_data z) (v_parity z) (v_shard z) (v_size z) (v_ts z) (v_sequence z) x (v_unique z) (v_locate z)) (fun b => plain _) _ reads_text)|].
  destruct (str_eqb k (s2l "uniqueId")); [exact (reads_into _ _ (fun x => MkVersion (v_compress z) (v_strategy z) (v_data z) (v_parity z) (v_shard z) (v_size z) (v_ts z) (v_sequence z) (v_hash z) x (v_locate z)) (fun b => plain _) _ reads_text)|].
  destruct (str_eqb k (s2l "locate")); [exact (reads_into _ _ (fun x => MkVersion (v_compress z) (v_strategy z) (v_data z) (v_parity z) (v_shard z) (v_size z) (v_ts z) (v_sequence z) (v_hash z) (v_unique z) x) _ _ (reads_texts _))|].
  apply reads_unknown.
Qed.

Theorem reads_version : forall z, reads (fun b => snd (unmarshal version_field z b)) (fun x => version_of x z).
Proof.
  intros z. refine (reads_ext _ _ _ _ _ (fun _ => eq_refl) _ (reads_record _ _ _ (version_is_field) z)).
  intros x. unfold version_of, meaning. destruct x as [| | | | | | | | |l]; try reflexivity.
  destruct (names_of l) as [fs|]; [|reflexivity]. apply version_slots.
Qed.

Lemma version_packs : forall z, version_ok z -> packs (version_value z) (marshal_version z).
Proof.
  intros z O. unfold version_ok in O. decompose [and] O. clear O.
  unfold version_value, marshal_version. apply (packs_record _ _ 11); [reflexivity|reflexivity|].
  apply packs_named; [reflexivity|apply packs_bool|].
  apply packs_named; [reflexivity|apply packs_int; eapply fits_wider; [|eassumption]; lia|].
  apply packs_named; [reflexivity|apply packs_int; eapply fits_wider; [|eassumption]; lia|].
  apply packs_named; [reflexivity|apply packs_int; eapply fits_wider; [|eassumption]; lia|].
  apply packs_named; [reflexivity|apply packs_int; assumption|].
  apply packs_named; [reflexivity|apply packs_int; assumption|].
  apply packs_named; [reflexivity|apply packs_int; assumption|].
  apply packs_named; [reflexivity|apply packs_uint; assumption|].
  apply packs_named; [reflexivity|apply packs_text; assumption|].
  apply packs_named; [reflexivity|apply packs_text; assumption|].
  apply packs_last; [reflexivity|apply packs_texts; assumption]. 
Qed.

Lemma version_back : forall z old, version_ok z -> version_of (version_value z) old = Some z.
Proof.
  intros z old O. unfold version_ok in O. decompose [and] O. clear O.
  unfold version_of, version_value, meaning, named. cbn [names_of]. rewrite <- (version_slots). cbn [lay]. unfold version_set. closed_names.
  cbn [as_bool as_text as_float]. cbn [option_map v_compress v_strategy v_data v_parity v_shard v_size v_ts v_sequence v_hash v_unique v_locate].
  rewrite as_int_back by assumption. cbn [option_map v_compress v_strategy v_data v_parity v_shard v_size v_ts v_sequence v_hash v_unique v_locate].
  rewrite as_int_back by assumption. cbn [option_map v_compress v_strategy v_data v_parity v_shard v_size v_ts v_sequence v_hash v_unique v_locate].
  rewrite as_int_back by assumption. cbn [option_map v_compress v_strategy v_data v_parity v_shard v_size v_ts v_sequence v_hash v_unique v_locate].
  rewrite as_int_back by assumption. cbn [option_map v_compress v_strategy v_data v_parity v_shard v_size v_ts v_sequence v_hash v_unique v_locate].
  rewrite as_int_back by assumption. cbn [option_map v_compress v_strategy v_data v_parity v_shard v_size v_ts v_sequence v_hash v_unique v_locate].
  rewrite as_int_back by assumption. cbn [option_map v_compress v_strategy v_data v_parity v_shard v_size v_ts v_sequence v_hash v_unique v_locate].
  rewrite as_uint_back by assumption. cbn [option_map v_compress v_strategy v_data v_parity v_shard v_size v_ts v_sequence v_hash v_unique v_locate].
  cbn [as_bool as_text as_float]. cbn [option_map v_compress v_strategy v_data v_parity v_shard v_size v_ts v_sequence v_hash v_unique v_locate].
  cbn [as_bool as_text as_float]. cbn [option_map v_compress v_strategy v_data v_parity v_shard v_size v_ts v_sequence v_hash v_unique v_locate].
  rewrite as_texts_back. cbn [option_map v_compress v_strategy v_data v_parity v_shard v_size v_ts v_sequence v_hash v_unique v_locate].
  destruct z; reflexivity.
Qed.

Lemma zero_version_ok : version_ok zero_version.
Proof. unfold version_ok, zero_version, fits_int, fits_uint, fits_text, fits_texts, fits_pointer, len. cbn. repeat split; try lia; constructor. Qed.

Lemma gives_version : forall z, version_ok z -> gives (fun b => snd (unmarshal version_field z b)) version_ok.
Proof.
  apply gives_record. intros k z O. unfold version_field.
  destruct (str_eqb k (s2l "compress")); [refine (gives_into _ _ (fun x => MkVersion x (v_strategy z) (v_data z) (v_parity z) (v_shard z) (v_size z) (v_ts z) (v_sequence z) (v_hash z) (v_unique z) (v_locate z)) (fun b => plain _) _ _ (gives_any _ read_bool) _); intros y Y; unfold version_ok in *; cbn [v_compress v_strategy v_data v_parity v_shard v_size v_ts v_sequence v_hash v_unique v_locate]; decompose [and] O; repeat (split; [assumption|]); assumption|].
  destruct (str_eqb k (s2l "store_strategy")); [refine (gives_into _ _ (fun x => MkVersion (v_compress z) x (v_data z) (v_parity z) (v_shard z) (v_size z) (v_ts z) (v_sequence z) (v_hash z) (v_unique z) (v_locate z)) (fun b => plain _) _ _ (gives_int 8) _); intros y Y; unfold version_ok in *; cbn [v_compress v_strategy v_data v_parity v_shard v_size v_ts v_sequence v_hash v_unique v_locate]; decompose [and] O; repeat (split; [assumption|]); assumption|].
  destruct (str_eqb k (s2l "data_shards")); [refine (gives_into _ _ (fun x => MkVersion (v_compress z) (v_strategy z) x (v_parity z) (v_shard z) (v_size z) (v_ts z) (v_sequence z) (v_hash z) (v_unique z) (v_locate z)) (fun b => plain _) _ _ (gives_int 32) _); intros y Y; unfold version_ok in *; cbn [v_compress v_strategy v_data v_parity v_shard v_size v_ts v_sequence v_hash v_unique v_locate]; decompose [and] O; repeat (split; [assumption|]); assumption|].
  destruct (str_eqb k (s2l "parity_shards")); [refine (gives_into _ _ (fun x => MkVersion (v_compress z) (v_strategy z) (v_data z) x (v_shard z) (v_size z) (v_ts z) (v_sequence z) (v_hash z) (v_unique z) (v_locate z)) (fun b => plain _) _ _ (gives_int 32) _); intros y Y; unfold version_ok in *; cbn [v_compress v_strategy v_data v_parity v_shard v_size v_ts v_sequence v_hash v_unique v_locate]; decompose [and] O; repeat (split; [assumption|]); assumption|].
  destruct (str_eqb k (s2l "shard_size")); [refine (gives_into _ _ (fun x => MkVersion (v_compress z) (v_strategy z) (v_data z) (v_parity z) x (v_size z) (v_ts z) (v_sequence z) (v_hash z) (v_unique z) (v_locate z)) (fun b => plain _) _ _ (gives_int 64) _); intros y Y; unfold version_ok in *; cbn [v_compress v_strategy v_data v_parity v_shard v_size v_ts v_sequence v_hash v_unique v_locate]; decompose [and] O; repeat (split; [assumption|]); assumption|].
  destruct (str_eqb k (s2l "size")); [refine (gives_into _ _ (fun x => MkVersion (v_compress z) (v_strategy z) (v_data z) (v_parity z) (v_shard z) x (v_ts z) (v_sequence z) (v_hash z) (v_unique z) (v_locate z)) (fun b => plain _) _ _ (gives_int 64) _); intros y Y; unfold version_ok in *; cbn [v_compress v_strategy v_data v_parity v_shard v_size v_ts v_sequence v_hash v_unique v_locate]; decompose [and] O; repeat (split; [assumption|]); assumption|].
  destruct (str_eqb k (s2l "ts")); [refine (gives_into _ _ (fun x => MkVersion (v_compress z) (v_strategy z) (v_data z) (v_parity z) (v_shard z) (v_size z) x (v_sequence z) (v_hash z) (v_unique z) (v_locate z)) (fun b => plain _) _ _ (gives_int 64) _); intros y Y; unfold version_ok in *; cbn [v_compress v_strategy v_data v_parity v_shard v_size v_ts v_sequence v_hash v_unique v_locate]; decompose [and] O; repeat (split; [assumption|]); assumption|].
  destruct (str_eqb k (s2l "sequence")); [refine (gives_into _ _ (fun x => MkVersion (v_compress z) (v_strategy z) (v_data z) (v_parity z) (v_shard z) (v_size z) (v_ts z) x (v_hash z) (v_unique z) (v_locate z)) (fun b => plain _) _ _ (gives_uint 64) _); intros y Y; unfold version_ok in *; cbn [v_compress v_strategy v_data v_parity v_shard v_size v_ts v_sequence v_hash v_unique v_locate]; decompose [and] O; repeat (split; [assumption|]); assumption|].
  destruct (str_eqb k (s2l "hash")); [refine (gives_into _ _ (fun x => MkVersion (v_compress z) (v_strategy z) (v_data z) (v_parity z) (v_shard z) (v_size z) (v_ts z) (v_sequence z) x (v_unique z) (v_locate z)) (fun b => plain _) _ _ gives_text _); intros y Y; unfold version_ok in *; cbn [v_compress v_strategy v_data v_parity v_shard v_size v_ts v_sequence v_hash v_unique v_locate]; decompose [and] O; repeat (split; [assumption|]); assumption|].
  destruct (str_eqb k (s2l "uniqueId")); [refine (gives_into _ _ (fun x => MkVersion (v_compress z) (v_strategy z) (v_data z) (v_parity z) (v_shard z) (v_size z) (v_ts z) (v_sequence z) (v_hash z) x (v_locate z)) (fun b => plain _) _ _ gives_text _); intros y Y; unfold version_ok in *; cbn [v_compress v_strategy v_data v_parity v_shard v_size v_ts v_sequence v_hash v_unique v_locate]; decompose [and] O; repeat (split; [assumption|]); assumption|].
  destruct (str_eqb k (s2l "locate")); [refine (gives_into _ _ (fun x => MkVersion (v_compress z) (v_strategy z) (v_data z) (v_parity z) (v_shard z) (v_size z) (v_ts z) (v_sequence z) (v_hash z) (v_unique z) x) _ _ _ (gives_texts _) _); intros y Y; unfold version_ok in *; cbn [v_compress v_strategy v_data v_parity v_shard v_size v_ts v_sequence v_hash v_unique v_locate]; decompose [and] O; repeat (split; [assumption|]); assumption|].
  apply gives_unknown. exact O.
Qed.

Lemma spare_version : forall z, spare (unmarshal version_field z).
Proof.
  apply spare_record. intros k z. unfold version_field.
  destruct (str_eqb k (s2l "compress")); [apply spare_into; exact (spare_plain _ _ _ reads_bool)|].
  destruct (str_eqb k (s2l "store_strategy")); [apply spare_into; exact (spare_plain _ _ _ (reads_int 8 ltac:(lia)))|].
  destruct (str_eqb k (s2l "data_shards")); [apply spare_into; exact (spare_plain _ _ _ (reads_int 32 ltac:(lia)))|].
  destruct (str_eqb k (s2l "parity_shards")); [apply spare_into; exact (spare_plain _ _ _ (reads_int 32 ltac:(lia)))|].
  destruct (str_eqb k (s2l "shard_size")); [apply spare_into; exact (spare_plain _ _ _ (reads_int 64 ltac:(lia)))|].
  destruct (str_eqb k (s2l "size")); [apply spare_into; exact (spare_plain _ _ _ (reads_int 64 ltac:(lia)))|].
  destruct (str_eqb k (s2l "ts")); [apply spare_into; exact (spare_plain _ _ _ (reads_int 64 ltac:(lia)))|].
  destruct (str_eqb k (s2l "sequence")); [apply spare_into; exact (spare_plain _ _ _ (reads_uint 64))|].
  destruct (str_eqb k (s2l "hash")); [apply spare_into; exact (spare_plain _ _ _ reads_text)|].
  destruct (str_eqb k (s2l "uniqueId")); [apply spare_into; exact (spare_plain _ _ _ reads_text)|].
  destruct (str_eqb k (s2l "locate")); [apply spare_into; apply spare_strings|].
  apply spare_unknown.
Qed.

Definition bucket_set (k : str) (x : value) (z : bucket) : option bucket :=
  if str_eqb k (s2l "versioning") then option_map (fun x => MkBucket x (b_readonly z) (b_compress z) (b_strategy z) (b_data z) (b_parity z) (b_remains z) (b_create z) (b_update z) (b_name z) (b_policies z)) (as_bool x)
  else if str_eqb k (s2l "readonly") then option_map (fun x => MkBucket (b_versioning z) x (b_compress z) (b_strategy z) (b_data z) (b_parity z) (b_remains z) (b_create z) (b_update z) (b_name z) (b_policies z)) (as_bool x)
  else if str_eqb k (s2l "compress") then option_map (fun x => MkBucket (b_versioning z) (b_readonly z) x (b_strategy z) (b_data z) (b_parity z) (b_remains z) (b_create z) (b_update z) (b_name z) (b_policies z)) (as_bool x)
  else if str_eqb k (s2l "store_strategy") then option_map (fun x => MkBucket (b_versioning z) (b_readonly z) (b_compress z) x (b_data z) (b_parity z) (b_remains z) (b_create z) (b_update z) (b_name z) (b_policies z)) (as_int 8 x)
  else if str_eqb k (s2l "data_shards") then option_map (fun x => MkBucket (b_versioning z) (b_readonly z) (b_compress z) (b_strategy z) x (b_parity z) (b_remains z) (b_create z) (b_update z) (b_name z) (b_policies z)) (as_int 32 x)
  else if str_eqb k (s2l "parity_shards") then option_map (fun x => MkBucket (b_versioning z) (b_readonly z) (b_compress z) (b_strategy z) (b_data z) x (b_remains z) (b_create z) (b_update z) (b_name z) (b_policies z)) (as_int 32 x)
  else if str_eqb k (s2l "version_remains") then option_map (fun x => MkBucket (b_versioning z) (b_readonly z) (b_compress z) (b_strategy z) (b_data z) (b_parity z) x (b_create z) (b_update z) (b_name z) (b_policies z)) (as_int 32 x)
  else if str_eqb k (s2l "create_time") then option_map (fun x => MkBucket (b_versioning z) (b_readonly z) (b_compress z) (b_strategy z) (b_data z) (b_parity z) (b_remains z) x (b_update z) (b_name z) (b_policies z)) (as_int 64 x)
  else if str_eqb k (s2l "update_time") then option_map (fun x => MkBucket (b_versioning z) (b_readonly z) (b_compress z) (b_strategy z) (b_data z) (b_parity z) (b_remains z) (b_create z) x (b_name z) (b_policies z)) (as_int 64 x)
  else if str_eqb k (s2l "name") then option_map (fun x => MkBucket (b_versioning z) (b_readonly z) (b_compress z) (b_strategy z) (b_data z) (b_parity z) (b_remains z) (b_create z) (b_update z) x (b_policies z)) (as_text x)
  else if str_eqb k (s2l "policies") then option_map (fun x => MkBucket (b_versioning z) (b_readonly z) (b_compress z) (b_strategy z) (b_data z) (b_parity z) (b_remains z) (b_create z) (b_update z) (b_name z) x) (as_texts x)
  else Some z.

Lemma bucket_slots : forall fs z, lay bucket_set fs z = (Some MkBucket
    <*> slot (only as_bool) "versioning" fs (b_versioning z)
    <*> slot (only as_bool) "readonly" fs (b_readonly z)
    <*> slot (only as_bool) "compress" fs (b_compress z)
    <*> slot (only (as_int 8)) "store_strategy" fs (b_strategy z)
    <*> slot (only (as_int 32)) "data_shards" fs (b_data z)
    <*> slot (only (as_int 32)) "parity_shards" fs (b_parity z)
    <*> slot (only (as_int 32)) "version_remains" fs (b_remains z)
    <*> slot (only (as_int 64)) "create_time" fs (b_create z)
    <*> slot (only (as_int 64)) "update_time" fs (b_update z)
    <*> slot (only as_text) "name" fs (b_name z)
    <*> slot (only as_texts) "policies" fs (b_policies z)).
Proof. slots_tac bucket_set. Qed.

Lemma bucket_is_field : is_field bucket_field bucket_set.
Proof.
  intros k z. unfold bucket_field, bucket_set.
  destruct (str_eqb k (s2l "versioning")); [exact (reads_into _ _ (fun x => MkBucket x (b_readonly z) (b_compress z) (b_strategy z) (b_data z) (b_parity z) (b_remains z) (b_create z) (b_update z) (b_name z) (b_policies z)) (fun b => plain _) _ reads_bool)|].
  destruct (str_eqb k (s2l "readonly")); [exact (reads_into _ _ (fun x => MkBucket (b_versioning z) x (b_compress z) (b_strategy z) (b_data z) (b_parity z) (b_remains z) (b_create z) (b_update z) (b_name z) (b_policies z)) (fun b => plain _) _ reads_bool)|].
  destruct (str_eqb k (s2l "compress")); [exact (reads_into _ _ (fun x => MkBucket (b_versioning z) (b_readonly z) x (b_strategy z) (b_data z) (b_parity z) (b_remains z) (b_create z) (b_update z) (b_name z) (b_policies z)) (fun b => plain _) _ reads_bool)|].
  destruct (str_eqb k (s2l "store_strategy")); [exact (reads_into _ _ (fun x => MkBucket (b_versioning z) (b_readonly z) (b_compress z) x (b_data z) (b_parity z) (b_remains z) (b_create z) (b_update z) (b_name z) (b_policies z)) (fun b => plain _) _ (reads_int 8 ltac:(lia)))|].
  destruct (str_eqb k (s2l "data_shards")); [exact (reads_into _ _ (fun x => MkBucket (b_versioning z) (b_readonly z) (b_compress z) (b_strategy z) x (b_parity z) (b_remains z) (b_create z) (b_update z) (b_name z) (b_policies z)) (fun b => plain _) _ (reads_int 32 ltac:(lia)))|].
  destruct (str_eqb k (s2l "parity_shards")); [exact (reads_into _ _ (fun x => MkBucket (b_versioning z) (b_readonly z) (b_compress z) (b_strategy z) (b_data z) x (b_remains z) (b_create z) (b_update z) (b_name z) (b_policies z)) (fun b => plain _) _ (reads_int 32 ltac:(lia)))|].
  destruct (str_eqb k (s2l "version_remains")); [exact (reads_into _ _ (fun x => MkBucket (b_versioning z) (b_readonly z) (b_compress z) (b_strategy z) (b_data z) (b_parity z) x (b_create z) (b_update z) (b_name z) (b_policies z)) (fun b => plain _) _ (reads_int 32 ltac:(lia)))|].
  destruct (str_eqb k (s2l "create_time")); [exact (reads_into _ _ (fun x => MkBucket (b_versioning z) (b_readonly z) (b_compress z) (b_strategy z) (b_data z) (b_parity z) (b_remains z) x (b_update z) (b_name z) (b_policies z)) (fun b => plain _) _ (reads_int 64 ltac:(lia)))|].
  destruct (str_eqb k (s2l "update_time")); [exact (reads_into _ _ (fun x => MkBucket (b_versioning z) (b_readonly z) (b_compress z) (b_strategy z) (b_data z) (b_parity z) (b_remains z) (b_create z) x (b_name z) (b_policies z)) (fun b => plain _) _ (reads_int 64 ltac:(lia)))|].
  destruct (str_eqb k (s2l "name")); [exact (reads_into _ _ (fun x => MkBucket (b_versioning z) (b_readonly z) (b_compress z) (b_strategy z) (b_data z) (b_parity z) (b_remains z) (b_create z) (b_update z) x (b_policies z)) (fun b => plain _) _ reads_text)|].
  destruct (str_eqb k (s2l "policies")); [exact (reads_into _ _ (fun x => MkBucket (b_versioning z) (b_readonly z) (b_compress z) (b_strategy z) (b_data z) (b_parity z) (b_remains z) (b_create z) (b_update z) (b_name z) x) _ _ (reads_texts _))|].
  apply reads_unknown.
Qed.

Theorem reads_bucket : forall z, reads (fun b => snd (unmarshal bucket_field z b)) (fun x => bucket_of x z).
Proof.
  intros z. refine (reads_ext _ _ _ _ _ (fun _ => eq_refl) _ (reads_record _ _ _ (bucket_is_field) z)).
  intros x. unfold bucket_of, meaning. destruct x as [| | | | | | | | |l]; try reflexivity.
  destruct (names_of l) as [fs|]; [|reflexivity]. apply bucket_slots.
Qed.

Lemma bucket_packs : forall z, bucket_ok z -> packs (bucket_value z) (marshal_bucket z).
Proof.
  intros z O. unfold bucket_ok in O. decompose [and] O. clear O.
  unfold bucket_value, marshal_bucket. apply (packs_record _ _ 11); [reflexivity|reflexivity|].
  apply packs_named; [reflexivity|apply packs_bool|].
  apply packs_named; [reflexivity|apply packs_bool|].
  apply packs_named; [reflexivity|apply packs_bool|].
  apply packs_named; [reflexivity|apply packs_int; eapply fits_wider; [|eassumption]; lia|].
  apply packs_named; [reflexivity|apply packs_int; eapply fits_wider; [|eassumption]; lia|].
  apply packs_named; [reflexivity|apply packs_int; eapply fits_wider; [|eassumption]; lia|].
  apply packs_named; [reflexivity|apply packs_int; eapply fits_wider; [|eassumption]; lia|].
  apply packs_named; [reflexivity|apply packs_int; assumption|].
  apply packs_named; [reflexivity|apply packs_int; assumption|].
  apply packs_named; [reflexivity|apply packs_text; assumption|].
  apply packs_last; [reflexivity|apply packs_texts; assumption]. 
Qed.

Lemma bucket_back : forall z old, bucket_ok z -> bucket_of (bucket_value z) old = Some z.
Proof.
  intros z old O. unfold bucket_ok in O. decompose [and] O. clear O.
  unfold bucket_of, bucket_value, meaning, named. cbn [names_of]. rewrite <- (bucket_slots). cbn [lay]. unfold bucket_set. closed_names.
  cbn [as_bool as_text as_float]. cbn [option_map b_versioning b_readonly b_compress b_strategy b_data b_parity b_remains b_create b_update b_name b_policies].
  cbn [as_bool as_text as_float]. cbn [option_map b_versioning b_readonly b_compress b_strategy b_data b_parity b_remains b_create b_update b_name b_policies].
  cbn [as_bool as_text as_float]. cbn [option_map b_versioning b_readonly b_compress b_strategy b_data b_parity b_remains b_create b_update b_name b_policies].
  rewrite as_int_back by assumption. cbn [option_map b_versioning b_readonly b_compress b_strategy b_data b_parity b_remains b_create b_update b_name b_policies].
  rewrite as_int_back by assumption. cbn [option_map b_versioning b_readonly b_compress b_strategy b_data b_parity b_remains b_create b_update b_name b_policies].
  rewrite as_int_back by assumption. cbn [option_map b_versioning b_readonly b_compress b_strategy b_data b_parity b_remains b_create b_update b_name b_policies].
  rewrite as_int_back by assumption. cbn [option_map b_versioning b_readonly b_compress b_strategy b_data b_parity b_remains b_create b_update b_name b_policies].
  rewrite as_int_back by assumption. cbn [option_map b_versioning b_readonly b_compress b_strategy b_data b_parity b_remains b_create b_update b_name b_policies].
  rewrite as_int_back by assumption. cbn [option_map b_versioning b_readonly b_compress b_strategy b_data b_parity b_remains b_create b_update b_name b_policies].
  cbn [as_bool as_text as_float]. cbn [option_map b_versioning b_readonly b_compress b_strategy b_data b_parity b_remains b_create b_update b_name b_policies].
  rewrite as_texts_back. cbn [option_map b_versioning b_readonly b_compress b_strategy b_data b_parity b_remains b_create b_update b_name b_policies].
  destruct z; reflexivity.
Qed.

Lemma zero_bucket_ok : bucket_ok zero_bucket.
Proof. unfold bucket_ok, zero_bucket, fits_int, fits_uint, fits_text, fits_texts, fits_pointer, len. cbn. repeat split; try lia; constructor. Qed.

Lemma gives_bucket : forall z, bucket_ok z -> gives (fun b => snd (unmarshal bucket_field z b)) bucket_ok.
Proof.
  apply gives_record. intros k z O. unfold bucket_field.
  destruct (str_eqb k (s2l "versioning")); [refine (gives_into _ _ (fun x => MkBucket x (b_readonly z) (b_compress z) (b_strategy z) (b_data z) (b_parity z) (b_remains z) (b_create z) (b_update z) (b_name z) (b_policies z)) (fun b => plain _) _ _ (gives_any _ read_bool) _); intros y Y; unfold bucket_ok in *; cbn [b_versioning b_readonly b_compress b_strategy b_data b_parity b_remains b_create b_update b_name b_policies]; decompose [and] O; repeat (split; [assumption|]); assumption|].
  destruct (str_eqb k (s2l "readonly")); [refine (gives_into _ _ (fun x => MkBucket (b_versioning z) x (b_compress z) (b_strategy z) (b_data z) (b_parity z) (b_remains z) (b_create z) (b_update z) (b_name z) (b_policies z)) (fun b => plain _) _ _ (gives_any _ read_bool) _); intros y Y; unfold bucket_ok in *; cbn [b_versioning b_readonly b_compress b_strategy b_data b_parity b_remains b_create b_update b_name b_policies]; decompose [and] O; repeat (split; [assumption|]); assumption|].
  destruct (str_eqb k (s2l "compress")); [refine (gives_into _ _ (fun x => MkBucket (b_versioning z) (b_readonly z) x (b_strategy z) (b_data z) (b_parity z) (b_remains z) (b_create z) (b_update z) (b_name z) (b_policies z)) (fun b => plain _) _ _ (gives_any _ read_bool) _); intros y Y; unfold bucket_ok in *; cbn [b_versioning b_readonly b_compress b_strategy b_data b_parity b_remains b_create b_update b_name b_policies]; decompose [and] O; repeat (split; [assumption|]); assumption|].
  destruct (str_eqb k (s2l "store_strategy")); [refine (gives_into _ _ (fun x => MkBucket (b_versioning z) (b_readonly z) (b_compress z) x (b_data z) (b_parity z) (b_remains z) (b_create z) (b_update z) (b_name z) (b_policies z)) (fun b => plain _) _ _ (gives_int 8) _); intros y Y; unfold bucket_ok in *; cbn [b_versioning b_readonly b_compress b_strategy b_data b_parity b_remains b_create b_update b_name b_policies]; decompose [and] O; repeat (split; [assumption|]); assumption|].
  destruct (str_eqb k (s2l "data_shards")); [refine (gives_into _ _ (fun x => MkBucket (b_versioning z) (b_readonly z) (b_compress z) (b_strategy z) x (b_parity z) (b_remains z) (b_create z) (b_update z) (b_name z) (b_policies z)) (fun b => plain _) _ _ (gives_int 32) _); intros y Y; unfold bucket_ok in *; cbn [b_versioning b_readonly b_compress b_strategy b_data b_parity b_remains b_create b_update b_name b_policies]; decompose [and] O; repeat (split; [assumption|]); assumption|].
  destruct (str_eqb k (s2l "parity_shards")); [refine (gives_into _ _ (fun x => MkBucket (b_versioning z) (b_readonly z) (b_compress z) (b_strategy z) (b_data z) x (b_remains z) (b_create z) (b_update z) (b_name z) (b_policies z)) (fun b => plain _) _ _ (gives_int 32) _); intros y Y; unfold bucket_ok in *; cbn [b_versioning b_readonly b_compress b_strategy b_data b_parity b_remains b_create b_update b_name b_policies]; decompose [and] O; repeat (split; [assumption|]); assumption|].
  destruct (str_eqb k (s2l "version_remains")); [refine (gives_into _ _ (fun x => MkBucket (b_versioning z) (b_readonly z) (b_compress z) (b_strategy z) (b_data z) (b_parity z) x (b_create z) (b_update z) (b_name z) (b_policies z)) (fun b => plain _) _ _ (gives_int 32) _); intros y Y; unfold bucket_ok in *; cbn [b_versioning b_readonly b_compress b_strategy b_data b_parity b_remains b_create b_update b_name b_policies]; decompose [and] O; repeat (split; [assumption|]); assumption|].
  destruct (str_eqb k (s2l "create_time")); [refine (gives_into _ _ (fun x => MkBucket (b_versioning z) (b_readonly z) (b_compress z) (b_strategy z) (b_data z) (b_parity z) (b_remains z) x (b_update z) (b_name z) (b_policies z)) (fun b => plain _) _ _ (gives_int 64) _); intros y Y; unfold bucket_ok in *; cbn [b_versioning b_readonly b_compress b_strategy b_data b_parity b_remains b_create b_update b_name b_policies]; decompose [and] O; repeat (split; [assumption|]); assumption|].
  destruct (str_eqb k (s2l "update_time")); [refine (gives_into _ _ (fun x => MkBucket (b_versioning z) (b_readonly z) (b_compress z) (b_strategy z) (b_data z) (b_parity z) (b_remains z) (b_create z) x (b_name z) (b_policies z)) (fun b => plain _) _ _ (gives_int 64) _); intros y Y; unfold bucket_ok in *; cbn [b_versioning b_readonly b_compress b_strategy b_data b_parity b_remains b_create b_update b_name b_policies]; decompose [and] O; repeat (split; [assumption|]); assumption|].
  destruct (str_eqb k (s2l "name")); [refine (gives_into _ _ (fun x => MkBucket (b_versioning z) (b_readonly z) (b_compress z) (b_strategy z) (b_data z) (b_parity z) (b_remains z) (b_create z) (b_update z) x (b_policies z)) (fun b => plain _) _ _ gives_text _); intros y Y; unfold bucket_ok in *; cbn [b_versioning b_readonly b_compress b_strategy b_data b_parity b_remains b_create b_update b_name b_policies]; decompose [and] O; repeat (split; [assumption|]); assumption|].
  destruct (str_eqb k (s2l "policies")); [refine (gives_into _ _ (fun x => MkBucket (b_versioning z) (b_readonly z) (b_compress z) (b_strategy z) (b_data z) (b_parity z) (b_remains z) (b_create z) (b_update z) (b_name z) x) _ _ _ (gives_texts _) _); intros y Y; unfold bucket_ok in *; cbn [b_versioning b_readonly b_compress b_strategy b_data b_parity b_remains b_create b_update b_name b_policies]; decompose [and] O; repeat (split; [assumption|]); assumption|].
  apply gives_unknown. exact O.
Qed.

Lemma spare_bucket : forall z, spare (unmarshal bucket_field z).
Proof.
  apply spare_record. intros k z. unfold bucket_field.
  destruct (str_eqb k (s2l "versioning")); [apply spare_into; exact (spare_plain _ _ _ reads_bool)|].
  destruct (str_eqb k (s2l "readonly")); [apply spare_into; exact (spare_plain _ _ _ reads_bool)|].
  destruct (str_eqb k (s2l "compress")); [apply spare_into; exact (spare_plain _ _ _ reads_bool)|].
  destruct (str_eqb k (s2l "store_strategy")); [apply spare_into; exact (spare_plain _ _ _ (reads_int 8 ltac:(lia)))|].
  destruct (str_eqb k (s2l "data_shards")); [apply spare_into; exact (spare_plain _ _ _ (reads_int 32 ltac:(lia)))|].
  destruct (str_eqb k (s2l "parity_shards")); [apply spare_into; exact (spare_plain _ _ _ (reads_int 32 ltac:(lia)))|].
  destruct (str_eqb k (s2l "version_remains")); [apply spare_into; exact (spare_plain _ _ _ (reads_int 32 ltac:(lia)))|].
  destruct (str_eqb k (s2l "create_time")); [apply spare_into; exact (spare_plain _ _ _ (reads_int 64 ltac:(lia)))|].
  destruct (str_eqb k (s2l "update_time")); [apply spare_into; exact (spare_plain _ _ _ (reads_int 64 ltac:(lia)))|].
  destruct (str_eqb k (s2l "name")); [apply spare_into; exact (spare_plain _ _ _ reads_text)|].
  destruct (str_eqb k (s2l "policies")); [apply spare_into; apply spare_strings|].
  apply spare_unknown.
Qed.

Definition raft_data_set (k : str) (x : value) (z : raft_data) : option raft_data :=
  if str_eqb k (s2l "type") then option_map (fun x => MkRaft x (r_dest z) (r_name z) (r_sequence z) (r_version z) (r_metadata z) (r_bucket z)) (as_int 8 x)
  else if str_eqb k (s2l "dest") then option_map (fun x => MkRaft (r_type z) x (r_name z) (r_sequence z) (r_version z) (r_metadata z) (r_bucket z)) (as_int 8 x)
  else if str_eqb k (s2l "name") then option_map (fun x => MkRaft (r_type z) (r_dest z) x (r_sequence z) (r_version z) (r_metadata z) (r_bucket z)) (as_text x)
  else if str_eqb k (s2l "sequence") then option_map (fun x => MkRaft (r_type z) (r_dest z) (r_name z) x (r_version z) (r_metadata z) (r_bucket z)) (as_uint 64 x)
  else if str_eqb k (s2l "version") then option_map (fun x => MkRaft (r_type z) (r_dest z) (r_name z) (r_sequence z) x (r_metadata z) (r_bucket z)) (as_pointer zero_version version_of (r_version z) x)
  else if str_eqb k (s2l "metadata") then option_map (fun x => MkRaft (r_type z) (r_dest z) (r_name z) (r_sequence z) (r_version z) x (r_bucket z)) (as_pointer zero_metadata metadata_of (r_metadata z) x)
  else if str_eqb k (s2l "bucket") then option_map (fun x => MkRaft (r_type z) (r_dest z) (r_name z) (r_sequence z) (r_version z) (r_metadata z) x) (as_pointer zero_bucket bucket_of (r_bucket z) x)
  else Some z.

Lemma raft_data_slots : forall fs z, lay raft_data_set fs z = (Some MkRaft
    <*> slot (only (as_int 8)) "type" fs (r_type z)
    <*> slot (only (as_int 8)) "dest" fs (r_dest z)
    <*> slot (only as_text) "name" fs (r_name z)
    <*> slot (only (as_uint 64)) "sequence" fs (r_sequence z)
    <*> slot (as_pointer zero_version version_of) "version" fs (r_version z)
    <*> slot (as_pointer zero_metadata metadata_of) "metadata" fs (r_metadata z)
    <*> slot (as_pointer zero_bucket bucket_of) "bucket" fs (r_bucket z)).
Proof. slots_tac raft_data_set. Qed.

Lemma raft_data_is_field : is_field raft_data_field raft_data_set.
Proof.
  intros k z. unfold raft_data_field, raft_data_set.
  destruct (str_eqb k (s2l "type")); [exact (reads_into _ _ (fun x => MkRaft x (r_dest z) (r_name z) (r_sequence z) (r_version z) (r_metadata z) (r_bucket z)) (fun b => plain _) _ (reads_int 8 ltac:(lia)))|].
  destruct (str_eqb k (s2l "dest")); [exact (reads_into _ _ (fun x => MkRaft (r_type z) x (r_name z) (r_sequence z) (r_version z) (r_metadata z) (r_bucket z)) (fun b => plain _) _ (reads_int 8 ltac:(lia)))|].
  destruct (str_eqb k (s2l "name")); [exact (reads_into _ _ (fun x => MkRaft (r_type z) (r_dest z) x (r_sequence z) (r_version z) (r_metadata z) (r_bucket z)) (fun b => plain _) _ reads_text)|].
  destruct (str_eqb k (s2l "sequence")); [exact (reads_into _ _ (fun x => MkRaft (r_type z) (r_dest z) (r_name z) x (r_version z) (r_metadata z) (r_bucket z)) (fun b => plain _) _ (reads_uint 64))|].
  destruct (str_eqb k (s2l "version")); [exact (reads_into _ _ (fun x => MkRaft (r_type z) (r_dest z) (r_name z) (r_sequence z) x (r_metadata z) (r_bucket z)) _ _ (reads_pointer _ _ _ _ reads_version (fun _ => eq_refl) _))|].
  destruct (str_eqb k (s2l "metadata")); [exact (reads_into _ _ (fun x => MkRaft (r_type z) (r_dest z) (r_name z) (r_sequence z) (r_version z) x (r_bucket z)) _ _ (reads_pointer _ _ _ _ reads_metadata (fun _ => eq_refl) _))|].
  destruct (str_eqb k (s2l "bucket")); [exact (reads_into _ _ (fun x => MkRaft (r_type z) (r_dest z) (r_name z) (r_sequence z) (r_version z) (r_metadata z) x) _ _ (reads_pointer _ _ _ _ reads_bucket (fun _ => eq_refl) _))|].
  apply reads_unknown.
Qed.

Theorem reads_raft_data : forall z, reads (fun b => snd (unmarshal raft_data_field z b)) (fun x => raft_data_of x z).
Proof.
  intros z. refine (reads_ext _ _ _ _ _ (fun _ => eq_refl) _ (reads_record _ _ _ (raft_data_is_field) z)).
  intros x. unfold raft_data_of, meaning. destruct x as [| | | | | | | | |l]; try reflexivity.
  destruct (names_of l) as [fs|]; [|reflexivity]. apply raft_data_slots.
Qed.

Lemma raft_data_packs : forall z, raft_data_ok z -> packs (raft_data_value z) (marshal_raft_data z).
Proof.
  intros z O. unfold raft_data_ok in O. decompose [and] O. clear O.
  unfold raft_data_value, marshal_raft_data. apply (packs_record _ _ 7); [reflexivity|reflexivity|].
  apply packs_named; [reflexivity|apply packs_int; eapply fits_wider; [|eassumption]; lia|].
  apply packs_named; [reflexivity|apply packs_int; eapply fits_wider; [|eassumption]; lia|].
  apply packs_named; [reflexivity|apply packs_text; assumption|].
  apply packs_named; [reflexivity|apply packs_uint; assumption|].
  apply packs_named; [reflexivity|eapply (packs_pointer _ _ _ version_ok); [exact version_packs|assumption]|].
  apply packs_named; [reflexivity|eapply (packs_pointer _ _ _ metadata_ok); [exact metadata_packs|assumption]|].
  apply packs_last; [reflexivity|eapply (packs_pointer _ _ _ bucket_ok); [exact bucket_packs|assumption]]. 
Qed.

Lemma raft_data_back : forall z old, raft_data_ok z -> raft_data_of (raft_data_value z) old = Some z.
Proof.
  intros z old O. unfold raft_data_ok in O. decompose [and] O. clear O.
  unfold raft_data_of, raft_data_value, meaning, named. cbn [names_of]. rewrite <- (raft_data_slots). cbn [lay]. unfold raft_data_set. closed_names.
  rewrite as_int_back by assumption. cbn [option_map r_type r_dest r_name r_sequence r_version r_metadata r_bucket].
  rewrite as_int_back by assumption. cbn [option_map r_type r_dest r_name r_sequence r_version r_metadata r_bucket].
  cbn [as_bool as_text as_float]. cbn [option_map r_type r_dest r_name r_sequence r_version r_metadata r_bucket].
  rewrite as_uint_back by assumption. cbn [option_map r_type r_dest r_name r_sequence r_version r_metadata r_bucket].
  rewrite (as_pointer_back _ _ _ version_value version_ok) by (exact version_back || discriminate || assumption). cbn [option_map r_type r_dest r_name r_sequence r_version r_metadata r_bucket].
  rewrite (as_pointer_back _ _ _ metadata_value metadata_ok) by (exact metadata_back || discriminate || assumption). cbn [option_map r_type r_dest r_name r_sequence r_version r_metadata r_bucket].
  rewrite (as_pointer_back _ _ _ bucket_value bucket_ok) by (exact bucket_back || discriminate || assumption). cbn [option_map r_type r_dest r_name r_sequence r_version r_metadata r_bucket].
  destruct z; reflexivity.
Qed.

Lemma zero_raft_data_ok : raft_data_ok zero_raft_data.
Proof. unfold raft_data_ok, zero_raft_data, fits_int, fits_uint, fits_text, fits_texts, fits_pointer, len. cbn. repeat split; try lia; constructor. Qed.

Lemma gives_raft_data : forall z, raft_data_ok z -> gives (fun b => snd (unmarshal raft_data_field z b)) raft_data_ok.
Proof.
  apply gives_record. intros k z O. unfold raft_data_field.
  destruct (str_eqb k (s2l "type")); [refine (gives_into _ _ (fun x => MkRaft x (r_dest z) (r_name z) (r_sequence z) (r_version z) (r_metadata z) (r_bucket z)) (fun b => plain _) _ _ (gives_int 8) _); intros y Y; unfold raft_data_ok in *; cbn [r_type r_dest r_name r_sequence r_version r_metadata r_bucket]; decompose [and] O; repeat (split; [assumption|]); assumption|].
  destruct (str_eqb k (s2l "dest")); [refine (gives_into _ _ (fun x => MkRaft (r_type z) x (r_name z) (r_sequence z) (r_version z) (r_metadata z) (r_bucket z)) (fun b => plain _) _ _ (gives_int 8) _); intros y Y; unfold raft_data_ok in *; cbn [r_type r_dest r_name r_sequence r_version r_metadata r_bucket]; decompose [and] O; repeat (split; [assumption|]); assumption|].
  destruct (str_eqb k (s2l "name")); [refine (gives_into _ _ (fun x => MkRaft (r_type z) (r_dest z) x (r_sequence z) (r_version z) (r_metadata z) (r_bucket z)) (fun b => plain _) _ _ gives_text _); intros y Y; unfold raft_data_ok in *; cbn [r_type r_dest r_name r_sequence r_version r_metadata r_bucket]; decompose [and] O; repeat (split; [assumption|]); assumption|].
  destruct (str_eqb k (s2l "sequence")); [refine (gives_into _ _ (fun x => MkRaft (r_type z) (r_dest z) (r_name z) x (r_version z) (r_metadata z) (r_bucket z)) (fun b => plain _) _ _ (gives_uint 64) _); intros y Y; unfold raft_data_ok in *; cbn [r_type r_dest r_name r_sequence r_version r_metadata r_bucket]; decompose [and] O; repeat (split; [assumption|]); assumption|].
  destruct (str_eqb k (s2l "version")); [refine (gives_into _ _ (fun x => MkRaft (r_type z) (r_dest z) (r_name z) (r_sequence z) x (r_metadata z) (r_bucket z)) _ _ _ (gives_pointer _ _ _ _ gives_version zero_version_ok _ _) _); [unfold raft_data_ok in O; decompose [and] O; assumption|]; intros y Y; unfold raft_data_ok in *; cbn [r_type r_dest r_name r_sequence r_version r_metadata r_bucket]; decompose [and] O; repeat (split; [assumption|]); assumption|].
  destruct (str_eqb k (s2l "metadata")); [refine (gives_into _ _ (fun x => MkRaft (r_type z) (r_dest z) (r_name z) (r_sequence z) (r_version z) x (r_bucket z)) _ _ _ (gives_pointer _ _ _ _ gives_metadata zero_metadata_ok _ _) _); [unfold raft_data_ok in O; decompose [and] O; assumption|]; intros y Y; unfold raft_data_ok in *; cbn [r_type r_dest r_name r_sequence r_version r_metadata r_bucket]; decompose [and] O; repeat (split; [assumption|]); assumption|].
  destruct (str_eqb k (s2l "bucket")); [refine (gives_into _ _ (fun x => MkRaft (r_type z) (r_dest z) (r_name z) (r_sequence z) (r_version z) (r_metadata z) x) _ _ _ (gives_pointer _ _ _ _ gives_bucket zero_bucket_ok _ _) _); [unfold raft_data_ok in O; decompose [and] O; assumption|]; intros y Y; unfold raft_data_ok in *; cbn [r_type r_dest r_name r_sequence r_version r_metadata r_bucket]; decompose [and] O; repeat (split; [assumption|]); assumption|].
  apply gives_unknown. exact O.
Qed.

Lemma spare_raft_data : forall z, spare (unmarshal raft_data_field z).
Proof.
  apply spare_record. intros k z. unfold raft_data_field.
  destruct (str_eqb k (s2l "type")); [apply spare_into; exact (spare_plain _ _ _ (reads_int 8 ltac:(lia)))|].
  destruct (str_eqb k (s2l "dest")); [apply spare_into; exact (spare_plain _ _ _ (reads_int 8 ltac:(lia)))|].
  destruct (str_eqb k (s2l "name")); [apply spare_into; exact (spare_plain _ _ _ reads_text)|].
  destruct (str_eqb k (s2l "sequence")); [apply spare_into; exact (spare_plain _ _ _ (reads_uint 64))|].
  destruct (str_eqb k (s2l "version")); [apply spare_into; apply spare_pointer, spare_version|].
  destruct (str_eqb k (s2l "metadata")); [apply spare_into; apply spare_pointer, spare_metadata|].
  destruct (str_eqb k (s2l "bucket")); [apply spare_into; apply spare_pointer, spare_bucket|].
  apply spare_unknown.
Qed.

Definition slot_info_set (k : str) (x : value) (z : slot_info) : option slot_info :=
  if str_eqb k (s2l "id") then option_map (fun x => MkSlots x (s_server z) (s_slots z)) (as_text x)
  else if str_eqb k (s2l "server_id") then option_map (fun x => MkSlots (s_group z) x (s_slots z)) (as_text x)
  else if str_eqb k (s2l "slots") then option_map (fun x => MkSlots (s_group z) (s_server z) x) (as_texts x)
  else Some z.

Lemma slot_info_slots : forall fs z, lay slot_info_set fs z = (Some MkSlots
    <*> slot (only as_text) "id" fs (s_group z)
    <*> slot (only as_text) "server_id" fs (s_server z)
    <*> slot (only as_texts) "slots" fs (s_slots z)).
Proof. slots_tac slot_info_set. Qed.

Lemma slot_info_is_field : is_field slot_info_field slot_info_set.
Proof.
  intros k z. unfold slot_info_field, slot_info_set.
  destruct (str_eqb k (s2l "id")); [exact (reads_into _ _ (fun x => MkSlots x (s_server z) (s_slots z)) (fun b => plain _) _ reads_text)|].
  destruct (str_eqb k (s2l "server_id")); [exact (reads_into _ _ (fun x => MkSlots (s_group z) x (s_slots z)) (fun b => plain _) _ reads_text)|].
  destruct (str_eqb k (s2l "slots")); [exact (reads_into _ _ (fun x => MkSlots (s_group z) (s_server z) x) _ _ (reads_texts _))|].
  apply reads_unknown.
Qed.

Theorem reads_slot_info : forall z, reads (fun b => snd (unmarshal slot_info_field z b)) (fun x => slot_info_of x z).
Proof.
  intros z. refine (reads_ext _ _ _ _ _ (fun _ => eq_refl) _ (reads_record _ _ _ (slot_info_is_field) z)).
  intros x. unfold slot_info_of, meaning. destruct x as [| | | | | | | | |l]; try reflexivity.
  destruct (names_of l) as [fs|]; [|reflexivity]. apply slot_info_slots.
Qed.

Lemma slot_info_packs : forall z, slot_info_ok z -> packs (slot_info_value z) (marshal_slot_info z).
Proof.
  intros z O. unfold slot_info_ok in O. decompose [and] O. clear O.
  unfold slot_info_value, marshal_slot_info. apply (packs_record _ _ 3); [reflexivity|reflexivity|].
  apply packs_named; [reflexivity|apply packs_text; assumption|].
  apply packs_named; [reflexivity|apply packs_text; assumption|].
  apply packs_last; [reflexivity|apply packs_texts; assumption]. 
Qed.

Lemma slot_info_back : forall z old, slot_info_ok z -> slot_info_of (slot_info_value z) old = Some z.
Proof.
  intros z old O. unfold slot_info_ok in O. decompose [and] O. clear O.
  unfold slot_info_of, slot_info_value, meaning, named. cbn [names_of]. rewrite <- (slot_info_slots). cbn [lay]. unfold slot_info_set. closed_names.
  cbn [as_bool as_text as_float]. cbn [option_map s_group s_server s_slots].
  cbn [as_bool as_text as_float]. cbn [option_map s_group s_server s_slots].
  rewrite as_texts_back. cbn [option_map s_group s_server s_slots].
  destruct z; reflexivity.
Qed.

Lemma zero_slot_info_ok : slot_info_ok zero_slot_info.
Proof. unfold slot_info_ok, zero_slot_info, fits_int, fits_uint, fits_text, fits_texts, fits_pointer, len. cbn. repeat split; try lia; constructor. Qed.

Lemma gives_slot_info : forall z, slot_info_ok z -> gives (fun b => snd (unmarshal slot_info_field z b)) slot_info_ok.
Proof.
  apply gives_record. intros k z O. unfold slot_info_field.
  destruct (str_eqb k (s2l "id")); [refine (gives_into _ _ (fun x => MkSlots x (s_server z) (s_slots z)) (fun b => plain _) _ _ gives_text _); intros y Y; unfold slot_info_ok in *; cbn [s_group s_server s_slots]; decompose [and] O; repeat (split; [assumption|]); assumption|].
  destruct (str_eqb k (s2l "server_id")); [refine (gives_into _ _ (fun x => MkSlots (s_group z) x (s_slots z)) (fun b => plain _) _ _ gives_text _); intros y Y; unfold slot_info_ok in *; cbn [s_group s_server s_slots]; decompose [and] O; repeat (split; [assumption|]); assumption|].
  destruct (str_eqb k (s2l "slots")); [refine (gives_into _ _ (fun x => MkSlots (s_group z) (s_server z) x) _ _ _ (gives_texts _) _); intros y Y; unfold slot_info_ok in *; cbn [s_group s_server s_slots]; decompose [and] O; repeat (split; [assumption|]); assumption|].
  apply gives_unknown. exact O.
Qed.

Lemma spare_slot_info : forall z, spare (unmarshal slot_info_field z).
Proof.
  apply spare_record. intros k z. unfold slot_info_field.
  destruct (str_eqb k (s2l "id")); [apply spare_into; exact (spare_plain _ _ _ reads_text)|].
  destruct (str_eqb k (s2l "server_id")); [apply spare_into; exact (spare_plain _ _ _ reads_text)|].
  destruct (str_eqb k (s2l "slots")); [apply spare_into; apply spare_strings|].
  apply spare_unknown.
Qed.

Definition credential_set (k : str) (x : value) (z : credential) : option credential :=
  if str_eqb k (s2l "username") then option_map (fun x => MkCredential x (c_password z)) (as_text x)
  else if str_eqb k (s2l "password") then option_map (fun x => MkCredential (c_username z) x) (as_text x)
  else Some z.

Lemma credential_slots : forall fs z, lay credential_set fs z = (Some MkCredential
    <*> slot (only as_text) "username" fs (c_username z)
    <*> slot (only as_text) "password" fs (c_password z)).
Proof. slots_tac credential_set. Qed.

Lemma credential_is_field : is_field credential_field credential_set.
Proof.
  intros k z. unfold credential_field, credential_set.
  destruct (str_eqb k (s2l "username")); [exact (reads_into _ _ (fun x => MkCredential x (c_password z)) (fun b => plain _) _ reads_text)|].
  destruct (str_eqb k (s2l "password")); [exact (reads_into _ _ (fun x => MkCredential (c_username z) x) (fun b => plain _) _ reads_text)|].
  apply reads_unknown.
Qed.

Theorem reads_credential : forall z, reads (fun b => snd (unmarshal credential_field z b)) (fun x => credential_of x z).
Proof.
  intros z. refine (reads_ext _ _ _ _ _ (fun _ => eq_refl) _ (reads_record _ _ _ (credential_is_field) z)).
  intros x. unfold credential_of, meaning. destruct x as [| | | | | | | | |l]; try reflexivity.
  destruct (names_of l) as [fs|]; [|reflexivity]. apply credential_slots.
Qed.

Lemma credential_packs : forall z, credential_ok z -> packs (credential_value z) (marshal_credential z).
Proof.
  intros z O. unfold credential_ok in O. decompose [and] O. clear O.
  unfold credential_value, marshal_credential. apply (packs_record _ _ 2); [reflexivity|reflexivity|].
  apply packs_named; [reflexivity|apply packs_text; assumption|].
  apply packs_last; [reflexivity|apply packs_text; assumption]. 
Qed.

Lemma credential_back : forall z old, credential_ok z -> credential_of (credential_value z) old = Some z.
Proof.
  intros z old O. unfold credential_ok in O. decompose [and] O. clear O.
  unfold credential_of, credential_value, meaning, named. cbn [names_of]. rewrite <- (credential_slots). cbn [lay]. unfold credential_set. closed_names.
  cbn [as_bool as_text as_float]. cbn [option_map c_username c_password].
  cbn [as_bool as_text as_float]. cbn [option_map c_username c_password].
  destruct z; reflexivity.
Qed.

Lemma zero_credential_ok : credential_ok zero_credential.
Proof. unfold credential_ok, zero_credential, fits_int, fits_uint, fits_text, fits_texts, fits_pointer, len. cbn. repeat split; try lia; constructor. Qed.

Lemma gives_credential : forall z, credential_ok z -> gives (fun b => snd (unmarshal credential_field z b)) credential_ok.
Proof.
  apply gives_record. intros k z O. unfold credential_field.
  destruct (str_eqb k (s2l "username")); [refine (gives_into _ _ (fun x => MkCredential x (c_password z)) (fun b => plain _) _ _ gives_text _); intros y Y; unfold credential_ok in *; cbn [c_username c_password]; decompose [and] O; repeat (split; [assumption|]); assumption|].
  destruct (str_eqb k (s2l "password")); [refine (gives_into _ _ (fun x => MkCredential (c_username z) x) (fun b => plain _) _ _ gives_text _); intros y Y; unfold credential_ok in *; cbn [c_username c_password]; decompose [and] O; repeat (split; [assumption|]); assumption|].
  apply gives_unknown. exact O.
Qed.

Lemma spare_credential : forall z, spare (unmarshal credential_field z).
Proof.
  apply spare_record. intros k z. unfold credential_field.
  destruct (str_eqb k (s2l "username")); [apply spare_into; exact (spare_plain _ _ _ reads_text)|].
  destruct (str_eqb k (s2l "password")); [apply spare_into; exact (spare_plain _ _ _ reads_text)|].
  apply spare_unknown.
Qed.

Definition disk_info_set (k : str) (x : value) (z : disk_info) : option disk_info :=
  if str_eqb k (s2l "total") then option_map (fun x => MkDisk x (d_free z) (d_used z) (d_files z) (d_ffree z) (d_major z) (d_minor z) (d_fs z)) (as_uint 64 x)
  else if str_eqb k (s2l "free") then option_map (fun x => MkDisk (d_total z) x (d_used z) (d_files z) (d_ffree z) (d_major z) (d_minor z) (d_fs z)) (as_uint 64 x)
  else if str_eqb k (s2l "used") then option_map (fun x => MkDisk (d_total z) (d_free z) x (d_files z) (d_ffree z) (d_major z) (d_minor z) (d_fs z)) (as_uint 64 x)
  else if str_eqb k (s2l "files") then option_map (fun x => MkDisk (d_total z) (d_free z) (d_used z) x (d_ffree z) (d_major z) (d_minor z) (d_fs z)) (as_uint 64 x)
  else if str_eqb k (s2l "f_free") then option_map (fun x => MkDisk (d_total z) (d_free z) (d_used z) (d_files z) x (d_major z) (d_minor z) (d_fs z)) (as_uint 64 x)
  else if str_eqb k (s2l "major") then option_map (fun x => MkDisk (d_total z) (d_free z) (d_used z) (d_files z) (d_ffree z) x (d_minor z) (d_fs z)) (as_uint 32 x)
  else if str_eqb k (s2l "minor") then option_map (fun x => MkDisk (d_total z) (d_free z) (d_used z) (d_files z) (d_ffree z) (d_major z) x (d_fs z)) (as_uint 32 x)
  else if str_eqb k (s2l "fs_type") then option_map (fun x => MkDisk (d_total z) (d_free z) (d_used z) (d_files z) (d_ffree z) (d_major z) (d_minor z) x) (as_text x)
  else Some z.

Lemma disk_info_slots : forall fs z, lay disk_info_set fs z = (Some MkDisk
    <*> slot (only (as_uint 64)) "total" fs (d_total z)
    <*> slot (only (as_uint 64)) "free" fs (d_free z)
    <*> slot (only (as_uint 64)) "used" fs (d_used z)
    <*> slot (only (as_uint 64)) "files" fs (d_files z)
    <*> slot (only (as_uint 64)) "f_free" fs (d_ffree z)
    <*> slot (only (as_uint 32)) "major" fs (d_major z)
    <*> slot (only (as_uint 32)) "minor" fs (d_minor z)
    <*> slot (only as_text) "fs_type" fs (d_fs z)).
Proof. slots_tac disk_info_set. Qed.

Lemma disk_info_is_field : is_field disk_info_field disk_info_set.
Proof.
  intros k z. unfold disk_info_field, disk_info_set.
  destruct (str_eqb k (s2l "total")); [exact (reads_into _ _ (fun x => MkDisk x (d_free z) (d_used z) (d_files z) (d_ffree z) (d_major z) (d_minor z) (d_fs z)) (fun b => plain _) _ (reads_uint 64))|].
  destruct (str_eqb k (s2l "free")); [exact (reads_into _ _ (fun x => MkDisk (d_total z) x (d_used z) (d_files z) (d_ffree z) (d_major z) (d_minor z) (d_fs z)) (fun b => plain _) _ (reads_uint 64))|].
  destruct (str_eqb k (s2l "used")); [exact (reads_into _ _ (fun x => MkDisk (d_total z) (d_free z) x (d_files z) (d_ffree z) (d_major z) (d_minor z) (d_fs z)) (fun b => plain _) _ (reads_uint 64))|].
  destruct (str_eqb k (s2l "files")); [exact (reads_into _ _ (fun x => MkDisk (d_total z) (d_free z) (d_used z) x (d_ffree z) (d_major z) (d_minor z) (d_fs z)) (fun b => plain _) _ (reads_uint 64))|].
  destruct (str_eqb k (s2l "f_free")); [exact (reads_into _ _ (fun x => MkDisk (d_total z) (d_free z) (d_used z) (d_files z) x (d_major z) (d_minor z) (d_fs z)) (fun b => plain _) _ (reads_uint 64))|].
  destruct (str_eqb k (s2l "major")); [exact (reads_into _ _ (fun x => MkDisk (d_total z) (d_free z) (d_used z) (d_files z) (d_ffree z) x (d_minor z) (d_fs z)) (fun b => plain _) _ (reads_uint 32))|].
  destruct (str_eqb k (s2l "minor")); [exact (reads_into _ _ (fun x => MkDisk (d_total z) (d_free z) (d_used z) (d_files z) (d_ffree z) (d_major z) x (d_fs z)) (fun b => plain _) _ (reads_uint 32))|].
  destruct (str_eqb k (s2l "fs_type")); [exact (reads_into _ _ (fun x => MkDisk (d_total z) (d_free z) (d_used z) (d_files z) (d_ffree z) (d_major z) (d_minor z) x) (fun b => plain _) _ reads_text)|].
  apply reads_unknown.
Qed.

Theorem reads_disk_info : forall z, reads (fun b => snd (unmarshal disk_info_field z b)) (fun x => disk_info_of x z).
Proof.
  intros z. refine (reads_ext _ _ _ _ _ (fun _ => eq_refl) _ (reads_record _ _ _ (disk_info_is_field) z)).
  intros x. unfold disk_info_of, meaning. destruct x as [| | | | | | | | |l]; try reflexivity.
  destruct (names_of l) as [fs|]; [|reflexivity]. apply disk_info_slots.
Qed.

Lemma disk_info_packs : forall z, disk_info_ok z -> packs (disk_info_value z) (marshal_disk_info z).
Proof.
  intros z O. unfold disk_info_ok in O. decompose [and] O. clear O.
  unfold disk_info_value, marshal_disk_info. apply (packs_record _ _ 8); [reflexivity|reflexivity|].
  apply packs_named; [reflexivity|apply packs_uint; assumption|].
  apply packs_named; [reflexivity|apply packs_uint; assumption|].
  apply packs_named; [reflexivity|apply packs_uint; assumption|].
  apply packs_named; [reflexivity|apply packs_uint; assumption|].
  apply packs_named; [reflexivity|apply packs_uint; assumption|].
  apply packs_named; [reflexivity|apply packs_uint; eapply fits_uwider; [|eassumption]; lia|].
  apply packs_named; [reflexivity|apply packs_uint; eapply fits_uwider; [|eassumption]; lia|].
  apply packs_last; [reflexivity|apply packs_text; assumption]. 
Qed.

Lemma disk_info_back : forall z old, disk_info_ok z -> disk_info_of (disk_info_value z) old = Some z.
Proof.
  intros z old O. unfold disk_info_ok in O. decompose [and] O. clear O.
  unfold disk_info_of, disk_info_value, meaning, named. cbn [names_of]. rewrite <- (disk_info_slots). cbn [lay]. unfold disk_info_set. closed_names.
  rewrite as_uint_back by assumption. cbn [option_map d_total d_free d_used d_files d_ffree d_major d_minor d_fs].
  rewrite as_uint_back by assumption. cbn [option_map d_total d_free d_used d_files d_ffree d_major d_minor d_fs].
  rewrite as_uint_back by assumption. cbn [option_map d_total d_free d_used d_files d_ffree d_major d_minor d_fs].
  rewrite as_uint_back by assumption. cbn [option_map d_total d_free d_used d_files d_ffree d_major d_minor d_fs].
  rewrite as_uint_back by assumption. cbn [option_map d_total d_free d_used d_files d_ffree d_major d_minor d_fs].
  rewrite as_uint_back by assumption. cbn [option_map d_total d_free d_used d_files d_ffree d_major d_minor d_fs].
  rewrite as_uint_back by assumption. cbn [option_map d_total d_free d_used d_files d_ffree d_major d_minor d_fs].
  cbn [as_bool as_text as_float]. cbn [option_map d_total d_free d_used d_files d_ffree d_major d_minor d_fs].
  destruct z; reflexivity.
Qed.

Lemma zero_disk_info_ok : disk_info_ok zero_disk_info.
Proof. unfold disk_info_ok, zero_disk_info, fits_int, fits_uint, fits_text, fits_texts, fits_pointer, len. cbn. repeat split; try lia; constructor. Qed.

Lemma gives_disk_info : forall z, disk_info_ok z -> gives (fun b => snd (unmarshal disk_info_field z b)) disk_info_ok.
Proof.
  apply gives_record. intros k z O. unfold disk_info_field.
  destruct (str_eqb k (s2l "total")); [refine (gives_into _ _ (fun x => MkDisk x (d_free z) (d_used z) (d_files z) (d_ffree z) (d_major z) (d_minor z) (d_fs z)) (fun b => plain _) _ _ (gives_uint 64) _); intros y Y; unfold disk_info_ok in *; cbn [d_total d_free d_used d_files d_ffree d_major d_minor d_fs]; decompose [and] O; repeat (split; [assumption|]); assumption|].
  destruct (str_eqb k (s2l "free")); [refine (gives_into _ _ (fun x => MkDisk (d_total z) x (d_used z) (d_files z) (d_ffree z) (d_major z) (d_minor z) (d_fs z)) (fun b => plain _) _ _ (gives_uint 64) _); intros y Y; unfold disk_info_ok in *; cbn [d_total d_free d_used d_files d_ffree d_major d_minor d_fs]; decompose [and] O; repeat (split; [assumption|]); assumption|].
  destruct (str_eqb k (s2l "used")); [refine (gives_into _ _ (fun x => MkDisk (d_total z) (d_free z) x (d_files z) (d_ffree z) (d_major z) (d_minor z) (d_fs z)) (fun b => plain _) _ _ (gives_uint 64) _); intros y Y; unfold disk_info_ok in *; cbn [d_total d_free d_used d_files d_ffree d_major d_minor d_fs]; decompose [and] O; repeat (split; [assumption|]); assumption|].
  destruct (str_eqb k (s2l "files")); [refine (gives_into _ _ (fun x => MkDisk (d_total z) (d_free z) (d_used z) x (d_ffree z) (d_major z) (d_minor z) (d_fs z)) (fun b => plain _) _ _ (gives_uint 64) _); intros y Y; unfold disk_info_ok in *; cbn [d_total d_free d_used d_files d_ffree d_major d_minor d_fs]; decompose [and] O; repeat (split; [assumption|]); assumption|].
  destruct (str_eqb k (s2l "f_free")); [refine (gives_into _ _ (fun x => MkDisk (d_total z) (d_free z) (d_used z) (d_files z) x (d_major z) (d_minor z) (d_fs z)) (fun b => plain _) _ _ (gives_uint 64) _); intros y Y; unfold disk_info_ok in *; cbn [d_total d_free d_used d_files d_ffree d_major d_minor d_fs]; decompose [and] O; repeat (split; [assumption|]); assumption|].
  destruct (str_eqb k (s2l "major")); [refine (gives_into _ _ (fun x => MkDisk (d_total z) (d_free z) (d_used z) (d_files z) (d_ffree z) x (d_minor z) (d_fs z)) (fun b => plain _) _ _ (gives_uint 32) _); intros y Y; unfold disk_info_ok in *; cbn [d_total d_free d_used d_files d_ffree d_major d_minor d_fs]; decompose [and] O; repeat (split; [assumption|]); assumption|].
  destruct (str_eqb k (s2l "minor")); [refine (gives_into _ _ (fun x => MkDisk (d_total z) (d_free z) (d_used z) (d_files z) (d_ffree z) (d_major z) x (d_fs z)) (fun b => plain _) _ _ (gives_uint 32) _); intros y Y; unfold disk_info_ok in *; cbn [d_total d_free d_used d_files d_ffree d_major d_minor d_fs]; decompose [and] O; repeat (split; [assumption|]); assumption|].
  destruct (str_eqb k (s2l "fs_type")); [refine (gives_into _ _ (fun x => MkDisk (d_total z) (d_free z) (d_used z) (d_files z) (d_ffree z) (d_major z) (d_minor z) x) (fun b => plain _) _ _ gives_text _); intros y Y; unfold disk_info_ok in *; cbn [d_total d_free d_used d_files d_ffree d_major d_minor d_fs]; decompose [and] O; repeat (split; [assumption|]); assumption|].
  apply gives_unknown. exact O.
Qed.

Lemma spare_disk_info : forall z, spare (unmarshal disk_info_field z).
Proof.
  apply spare_record. intros k z. unfold disk_info_field.
  destruct (str_eqb k (s2l "total")); [apply spare_into; exact (spare_plain _ _ _ (reads_uint 64))|].
  destruct (str_eqb k (s2l "free")); [apply spare_into; exact (spare_plain _ _ _ (reads_uint 64))|].
  destruct (str_eqb k (s2l "used")); [apply spare_into; exact (spare_plain _ _ _ (reads_uint 64))|].
  destruct (str_eqb k (s2l "files")); [apply spare_into; exact (spare_plain _ _ _ (reads_uint 64))|].
  destruct (str_eqb k (s2l "f_free")); [apply spare_into; exact (spare_plain _ _ _ (reads_uint 64))|].
  destruct (str_eqb k (s2l "major")); [apply spare_into; exact (spare_plain _ _ _ (reads_uint 32))|].
  destruct (str_eqb k (s2l "minor")); [apply spare_into; exact (spare_plain _ _ _ (reads_uint 32))|].
  destruct (str_eqb k (s2l "fs_type")); [apply spare_into; exact (spare_plain _ _ _ reads_text)|].
  apply spare_unknown.
Qed.

Definition io_stats_set (k : str) (x : value) (z : io_stats) : option io_stats :=
  if str_eqb k (s2l "read_bytes") then option_map (fun x => MkIo x (i_wbytes z) (i_rcount z) (i_wcount z) (i_rtime z) (i_wtime z) (i_current z) (i_time z) (i_weighted z)) (as_uint 64 x)
  else if str_eqb k (s2l "write_bytes") then option_map (fun x => MkIo (i_rbytes z) x (i_rcount z) (i_wcount z) (i_rtime z) (i_wtime z) (i_current z) (i_time z) (i_weighted z)) (as_uint 64 x)
  else if str_eqb k (s2l "read_count") then option_map (fun x => MkIo (i_rbytes z) (i_wbytes z) x (i_wcount z) (i_rtime z) (i_wtime z) (i_current z) (i_time z) (i_weighted z)) (as_uint 64 x)
  else if str_eqb k (s2l "write_count") then option_map (fun x => MkIo (i_rbytes z) (i_wbytes z) (i_rcount z) x (i_rtime z) (i_wtime z) (i_current z) (i_time z) (i_weighted z)) (as_uint 64 x)
  else if str_eqb k (s2l "read_time") then option_map (fun x => MkIo (i_rbytes z) (i_wbytes z) (i_rcount z) (i_wcount z) x (i_wtime z) (i_current z) (i_time z) (i_weighted z)) (as_uint 64 x)
  else if str_eqb k (s2l "write_time") then option_map (fun x => MkIo (i_rbytes z) (i_wbytes z) (i_rcount z) (i_wcount z) (i_rtime z) x (i_current z) (i_time z) (i_weighted z)) (as_uint 64 x)
  else if str_eqb k (s2l "current_ios") then option_map (fun x => MkIo (i_rbytes z) (i_wbytes z) (i_rcount z) (i_wcount z) (i_rtime z) (i_wtime z) x (i_time z) (i_weighted z)) (as_uint 64 x)
  else if str_eqb k (s2l "io_time") then option_map (fun x => MkIo (i_rbytes z) (i_wbytes z) (i_rcount z) (i_wcount z) (i_rtime z) (i_wtime z) (i_current z) x (i_weighted z)) (as_uint 64 x)
  else if str_eqb k (s2l "weighted_io") then option_map (fun x => MkIo (i_rbytes z) (i_wbytes z) (i_rcount z) (i_wcount z) (i_rtime z) (i_wtime z) (i_current z) (i_time z) x) (as_uint 64 x)
  else Some z.

Lemma io_stats_slots : forall fs z, lay io_stats_set fs z = (Some MkIo
    <*> slot (only (as_uint 64)) "read_bytes" fs (i_rbytes z)
    <*> slot (only (as_uint 64)) "write_bytes" fs (i_wbytes z)
    <*> slot (only (as_uint 64)) "read_count" fs (i_rcount z)
    <*> slot (only (as_uint 64)) "write_count" fs (i_wcount z)
    <*> slot (only (as_uint 64)) "read_time" fs (i_rtime z)
    <*> slot (only (as_uint 64)) "write_time" fs (i_wtime z)
    <*> slot (only (as_uint 64)) "current_ios" fs (i_current z)
    <*> slot (only (as_uint 64)) "io_time" fs (i_time z)
    <*> slot (only (as_uint 64)) "weighted_io" fs (i_weighted z)).
Proof. slots_tac io_stats_set. Qed.

Lemma io_stats_is_field : is_field io_stats_field io_stats_set.
Proof.
  intros k z. unfold io_stats_field, io_stats_set.
  destruct (str_eqb k (s2l "read_bytes")); [exact (reads_into _ _ (fun x => MkIo x (i_wbytes z) (i_rcount z) (i_wcount z) (i_rtime z) (i_wtime z) (i_current z) (i_time z) (i_weighted z)) (fun b => plain _) _ (reads_uint 64))|].
  destruct (str_eqb k (s2l "write_bytes")); [exact (reads_into _ _ (fun x => MkIo (i_rbytes z) x (i_rcount z) (i_wcount z) (i_rtime z) (i_wtime z) (i_current z) (i_time z) (i_weighted z)) (fun b => plain _) _ (reads_uint 64))|].
  destruct (str_eqb k (s2l "read_count")); [exact (reads_into _ _ (fun x => MkIo (i_rbytes z) (i_wbytes z) x (i_wcount z) (i_rtime z) (i_wtime z) (i_current z) (i_time z) (i_weighted z)) (fun b => plain _) _ (reads_uint 64))|].
  destruct (str_eqb k (s2l "write_count")); [exact (reads_into _ _ (fun x => MkIo (i_rbytes z) (i_wbytes z) (i_rcount z) x (i_rtime z) (i_wtime z) (i_current z) (i_time z) (i_weighted z)) (fun b => plain _) _ (reads_uint 64))|].
  destruct (str_eqb k (s2l "read_time")); [exact (reads_into _ _ (fun x => MkIo (i_rbytes z) (i_wbytes z) (i_rcount z) (i_wcount z) x (i_wtime z) (i_current z) (i_time z) (i_weighted z)) (fun b => plain _) _ (reads_uint 64))|].
  destruct (str_eqb k (s2l "write_time")); [exact (reads_into _ _ (fun x => MkIo (i_rbytes z) (i_wbytes z) (i_rcount z) (i_wcount z) (i_rtime z) x (i_current z) (i_time z) (i_weighted z)) (fun b => plain _) _ (reads_uint 64))|].
  destruct (str_eqb k (s2l "current_ios")); [exact (reads_into _ _ (fun x => MkIo (i_rbytes z) (i_wbytes z) (i_rcount z) (i_wcount z) (i_rtime z) (i_wtime z) x (i_time z) (i_weighted z)) (fun b => plain _) _ (reads_uint 64))|].
  destruct (str_eqb k (s2l "io_time")); [exact (reads_into _ _ (fun x => MkIo (i_rbytes z) (i_wbytes z) (i_rcount z) (i_wcount z) (i_rtime z) (i_wtime z) (i_current z) x (i_weighted z)) (fun b => plain _) _ (reads_uint 64))|].
  destruct (str_eqb k (s2l "weighted_io")); [exact (reads_into _ _ (fun x => MkIo (i_rbytes z) (i_wbytes z) (i_rcount z) (i_wcount z) (i_rtime z) (i_wtime z) (i_current z) (i_time z) x) (fun b => plain _) _ (reads_uint 64))|].
  apply reads_unknown.
Qed.

Theorem reads_io_stats : forall z, reads (fun b => snd (unmarshal io_stats_field z b)) (fun x => io_stats_of x z).
Proof.
  intros z. refine (reads_ext _ _ _ _ _ (fun _ => eq_refl) _ (reads_record _ _ _ (io_stats_is_field) z)).
  intros x. unfold io_stats_of, meaning. destruct x as [| | | | | | | | |l]; try reflexivity.
  destruct (names_of l) as [fs|]; [|reflexivity]. apply io_stats_slots.
Qed.

Lemma io_stats_packs : forall z, io_stats_ok z -> packs (io_stats_value z) (marshal_io_stats z).
Proof.
  intros z O. unfold io_stats_ok in O. decompose [and] O. clear O.
  unfold io_stats_value, marshal_io_stats. apply (packs_record _ _ 9); [reflexivity|reflexivity|].
  apply packs_named; [reflexivity|apply packs_uint; assumption|].
  apply packs_named; [reflexivity|apply packs_uint; assumption|].
  apply packs_named; [reflexivity|apply packs_uint; assumption|].
  apply packs_named; [reflexivity|apply packs_uint; assumption|].
  apply packs_named; [reflexivity|apply packs_uint; assumption|].
  apply packs_named; [reflexivity|apply packs_uint; assumption|].
  apply packs_named; [reflexivity|apply packs_uint; assumption|].
  apply packs_named; [reflexivity|apply packs_uint; assumption|].
  apply packs_last; [reflexivity|apply packs_uint; assumption]. 
Qed.

Lemma io_stats_back : forall z old, io_stats_ok z -> io_stats_of (io_stats_value z) old = Some z.
Proof.
  intros z old O. unfold io_stats_ok in O. decompose [and] O. clear O.
  unfold io_stats_of, io_stats_value, meaning, named. cbn [names_of]. rewrite <- (io_stats_slots). cbn [lay]. unfold io_stats_set. closed_names.
  rewrite as_uint_back by assumption. cbn [option_map i_rbytes i_wbytes i_rcount i_wcount i_rtime i_wtime i_current i_time i_weighted].
  rewrite as_uint_back by assumption. cbn [option_map i_rbytes i_wbytes i_rcount i_wcount i_rtime i_wtime i_current i_time i_weighted].
  rewrite as_uint_back by assumption. cbn [option_map i_rbytes i_wbytes i_rcount i_wcount i_rtime i_wtime i_current i_time i_weighted].
  rewrite as_uint_back by assumption. cbn [option_map i_rbytes i_wbytes i_rcount i_wcount i_rtime i_wtime i_current i_time i_weighted].
  rewrite as_uint_back by assumption. cbn [option_map i_rbytes i_wbytes i_rcount i_wcount i_rtime i_wtime i_current i_time i_weighted].
  rewrite as_uint_back by assumption. cbn [option_map i_rbytes i_wbytes i_rcount i_wcount i_rtime i_wtime i_current i_time i_weighted].
  rewrite as_uint_back by assumption. cbn [option_map i_rbytes i_wbytes i_rcount i_wcount i_rtime i_wtime i_current i_time i_weighted].
  rewrite as_uint_back by assumption. cbn [option_map i_rbytes i_wbytes i_rcount i_wcount i_rtime i_wtime i_current i_time i_weighted].
  rewrite as_uint_back by assumption. cbn [option_map i_rbytes i_wbytes i_rcount i_wcount i_rtime i_wtime i_current i_time i_weighted].
  destruct z; reflexivity.
Qed.

Lemma zero_io_stats_ok : io_stats_ok zero_io_stats.
Proof. unfold io_stats_ok, zero_io_stats, fits_int, fits_uint, fits_text, fits_texts, fits_pointer, len. cbn. repeat split; try lia; constructor. Qed.

Lemma gives_io_stats : forall z, io_stats_ok z -> gives (fun b => snd (unmarshal io_stats_field z b)) io_stats_ok.
Proof.
  apply gives_record. intros k z O. unfold io_stats_field.
  destruct (str_eqb k (s2l "read_bytes")); [refine (gives_into _ _ (fun x => MkIo x (i_wbytes z) (i_rcount z) (i_wcount z) (i_rtime z) (i_wtime z) (i_current z) (i_time z) (i_weighted z)) (fun b => plain _) _ _ (gives_uint 64) _); intros y Y; unfold io_stats_ok in *; cbn [i_rbytes i_wbytes i_rcount i_wcount i_rtime i_wtime i_current i_time i_weighted]; decompose [and] O; repeat (split; [assumption|]); assumption|].
  destruct (str_eqb k (s2l "write_bytes")); [refine (gives_into _ _ (fun x => MkIo (i_rbytes z) x (i_rcount z) (i_wcount z) (i_rtime z) (i_wtime z) (i_current z) (i_time z) (i_weighted z)) (fun b => plain _) _ _ (gives_uint 64) _); intros y Y; unfold io_stats_ok in *; cbn [i_rbytes i_wbytes i_rcount i_wcount i_rtime i_wtime i_current i_time i_weighted]; decompose [and] O; repeat (split; [assumption|]); assumption|].
  destruct (str_eqb k (s2l "read_count")); [refine (gives_into _ _ (fun x => MkIo (i_rbytes z) (i_wbytes z) x (i_wcount z) (i_rtime z) (i_wtime z) (i_current z) (i_time z) (i_weighted z)) (fun b => plain _) _ _ (gives_uint 64) _); intros y Y; unfold io_stats_ok in *; cbn [i_rbytes i_wbytes i_rcount i_wcount i_rtime i_wtime i_current i_time i_weighted]; decompose [and] O; repeat (split; [assumption|]); assumption|].
  destruct (str_eqb k (s2l "write_count")); [refine (gives_into _ _ (fun x => MkIo (i_rbytes z) (i_wbytes z) (i_rcount z) x (i_rtime z) (i_wtime z) (i_current z) (i_time z) (i_weighted z)) (fun b => plain _) _ _ (gives_uint 64) _); intros y Y; unfold io_stats_ok in *; cbn [i_rbytes i_wbytes i_rcount i_wcount i_rtime i_wtime i_current i_time i_weighted]; decompose [and] O; repeat (split; [assumption|]); assumption|].
  destruct (str_eqb k (s2l "read_time")); [refine (gives_into _ _ (fun x => MkIo (i_rbytes z) (i_wbytes z) (i_rcount z) (i_wcount z) x (i_wtime z) (i_current z) (i_time z) (i_weighted z)) (fun b => plain _) _ _ (gives_uint 64) _); intros y Y; unfold io_stats_ok in *; cbn [i_rbytes i_wbytes i_rcount i_wcount i_rtime i_wtime i_current i_time i_weighted]; decompose [and] O; repeat (split; [assumption|]); assumption|].
  destruct (str_eqb k (s2l "write_time")); [refine (gives_into _ _ (fun x => MkIo (i_rbytes z) (i_wbytes z) (i_rcount z) (i_wcount z) (i_rtime z) x (i_current z) (i_time z) (i_weighted z)) (fun b => plain _) _ _ (gives_uint 64) _); intros y Y; unfold io_stats_ok in *; cbn [i_rbytes i_wbytes i_rcount i_wcount i_rtime i_wtime i_current i_time i_weighted]; decompose [and] O; repeat (split; [assumption|]); assumption|].
  destruct (str_eqb k (s2l "current_ios")); [refine (gives_into _ _ (fun x => MkIo (i_rbytes z) (i_wbytes z) (i_rcount z) (i_wcount z) (i_rtime z) (i_wtime z) x (i_time z) (i_weighted z)) (fun b => plain _) _ _ (gives_uint 64) _); intros y Y; unfold io_stats_ok in *; cbn [i_rbytes i_wbytes i_rcount i_wcount i_rtime i_wtime i_current i_time i_weighted]; decompose [and] O; repeat (split; [assumption|]); assumption|].
  destruct (str_eqb k (s2l "io_time")); [refine (gives_into _ _ (fun x => MkIo (i_rbytes z) (i_wbytes z) (i_rcount z) (i_wcount z) (i_rtime z) (i_wtime z) (i_current z) x (i_weighted z)) (fun b => plain _) _ _ (gives_uint 64) _); intros y Y; unfold io_stats_ok in *; cbn [i_rbytes i_wbytes i_rcount i_wcount i_rtime i_wtime i_current i_time i_weighted]; decompose [and] O; repeat (split; [assumption|]); assumption|].
  destruct (str_eqb k (s2l "weighted_io")); [refine (gives_into _ _ (fun x => MkIo (i_rbytes z) (i_wbytes z) (i_rcount z) (i_wcount z) (i_rtime z) (i_wtime z) (i_current z) (i_time z) x) (fun b => plain _) _ _ (gives_uint 64) _); intros y Y; unfold io_stats_ok in *; cbn [i_rbytes i_wbytes i_rcount i_wcount i_rtime i_wtime i_current i_time i_weighted]; decompose [and] O; repeat (split; [assumption|]); assumption|].
  apply gives_unknown. exact O.
Qed.

Lemma spare_io_stats : forall z, spare (unmarshal io_stats_field z).
Proof.
  apply spare_record. intros k z. unfold io_stats_field.
  destruct (str_eqb k (s2l "read_bytes")); [apply spare_into; exact (spare_plain _ _ _ (reads_uint 64))|].
  destruct (str_eqb k (s2l "write_bytes")); [apply spare_into; exact (spare_plain _ _ _ (reads_uint 64))|].
  destruct (str_eqb k (s2l "read_count")); [apply spare_into; exact (spare_plain _ _ _ (reads_uint 64))|].
  destruct (str_eqb k (s2l "write_count")); [apply spare_into; exact (spare_plain _ _ _ (reads_uint 64))|].
  destruct (str_eqb k (s2l "read_time")); [apply spare_into; exact (spare_plain _ _ _ (reads_uint 64))|].
  destruct (str_eqb k (s2l "write_time")); [apply spare_into; exact (spare_plain _ _ _ (reads_uint 64))|].
  destruct (str_eqb k (s2l "current_ios")); [apply spare_into; exact (spare_plain _ _ _ (reads_uint 64))|].
  destruct (str_eqb k (s2l "io_time")); [apply spare_into; exact (spare_plain _ _ _ (reads_uint 64))|].
  destruct (str_eqb k (s2l "weighted_io")); [apply spare_into; exact (spare_plain _ _ _ (reads_uint 64))|].
  apply spare_unknown.
Qed.

Definition mem_status_set (k : str) (x : value) (z : mem_status) : option mem_status :=
  if str_eqb k (s2l "all") then option_map (fun x => MkMem x (e_used z) (e_free z) (e_self z)) (as_uint 64 x)
  else if str_eqb k (s2l "used") then option_map (fun x => MkMem (e_all z) x (e_free z) (e_self z)) (as_uint 64 x)
  else if str_eqb k (s2l "free") then option_map (fun x => MkMem (e_all z) (e_used z) x (e_self z)) (as_uint 64 x)
  else if str_eqb k (s2l "self") then option_map (fun x => MkMem (e_all z) (e_used z) (e_free z) x) (as_uint 64 x)
  else Some z.

Lemma mem_status_slots : forall fs z, lay mem_status_set fs z = (Some MkMem
    <*> slot (only (as_uint 64)) "all" fs (e_all z)
    <*> slot (only (as_uint 64)) "used" fs (e_used z)
    <*> slot (only (as_uint 64)) "free" fs (e_free z)
    <*> slot (only (as_uint 64)) "self" fs (e_self z)).
Proof. slots_tac mem_status_set. Qed.

Lemma mem_status_is_field : is_field mem_status_field mem_status_set.
Proof.
  intros k z. unfold mem_status_field, mem_status_set.
  destruct (str_eqb k (s2l "all")); [exact (reads_into _ _ (fun x => MkMem x (e_used z) (e_free z) (e_self z)) (fun b => plain _) _ (reads_uint 64))|].
  destruct (str_eqb k (s2l "used")); [exact (reads_into _ _ (fun x => MkMem (e_all z) x (e_free z) (e_self z)) (fun b => plain _) _ (reads_uint 64))|].
  destruct (str_eqb k (s2l "free")); [exact (reads_into _ _ (fun x => MkMem (e_all z) (e_used z) x (e_self z)) (fun b => plain _) _ (reads_uint 64))|].
  destruct (str_eqb k (s2l "self")); [exact (reads_into _ _ (fun x => MkMem (e_all z) (e_used z) (e_free z) x) (fun b => plain _) _ (reads_uint 64))|].
  apply reads_unknown.
Qed.

Theorem reads_mem_status : forall z, reads (fun b => snd (unmarshal mem_status_field z b)) (fun x => mem_status_of x z).
Proof.
  intros z. refine (reads_ext _ _ _ _ _ (fun _ => eq_refl) _ (reads_record _ _ _ (mem_status_is_field) z)).
  intros x. unfold mem_status_of, meaning. destruct x as [| | | | | | | | |l]; try reflexivity.
  destruct (names_of l) as [fs|]; [|reflexivity]. apply mem_status_slots.
Qed.

Lemma mem_status_packs : forall z, mem_status_ok z -> packs (mem_status_value z) (marshal_mem_status z).
Proof.
  intros z O. unfold mem_status_ok in O. decompose [and] O. clear O.
  unfold mem_status_value, marshal_mem_status. apply (packs_record _ _ 4); [reflexivity|reflexivity|].
  apply packs_named; [reflexivity|apply packs_uint; assumption|].
  apply packs_named; [reflexivity|apply packs_uint; assumption|].
  apply packs_named; [reflexivity|apply packs_uint; assumption|].
  apply packs_last; [reflexivity|apply packs_uint; assumption]. 
Qed.

Lemma mem_status_back : forall z old, mem_status_ok z -> mem_status_of (mem_status_value z) old = Some z.
Proof.
  intros z old O. unfold mem_status_ok in O. decompose [and] O. clear O.
  unfold mem_status_of, mem_status_value, meaning, named. cbn [names_of]. rewrite <- (mem_status_slots). cbn [lay]. unfold mem_status_set. closed_names.
  rewrite as_uint_back by assumption. cbn [option_map e_all e_used e_free e_self].
  rewrite as_uint_back by assumption. cbn [option_map e_all e_used e_free e_self].
  rewrite as_uint_back by assumption. cbn [option_map e_all e_used e_free e_self].
  rewrite as_uint_back by assumption. cbn [option_map e_all e_used e_free e_self].
  destruct z; reflexivity.
Qed.

Lemma zero_mem_status_ok : mem_status_ok zero_mem_status.
Proof. unfold mem_status_ok, zero_mem_status, fits_int, fits_uint, fits_text, fits_texts, fits_pointer, len. cbn. repeat split; try lia; constructor. Qed.

Lemma gives_mem_status : forall z, mem_status_ok z -> gives (fun b => snd (unmarshal mem_status_field z b)) mem_status_ok.
Proof.
  apply gives_record. intros k z O. unfold mem_status_field.
  destruct (str_eqb k (s2l "all")); [refine (gives_into _ _ (fun x => MkMem x (e_used z) (e_free z) (e_self z)) (fun b => plain _) _ _ (gives_uint 64) _); intros y Y; unfold mem_status_ok in *; cbn [e_all e_used e_free e_self]; decompose [and] O; repeat (split; [assumption|]); assumption|].
  destruct (str_eqb k (s2l "used")); [refine (gives_into _ _ (fun x => MkMem (e_all z) x (e_free z) (e_self z)) (fun b => plain _) _ _ (gives_uint 64) _); intros y Y; unfold mem_status_ok in *; cbn [e_all e_used e_free e_self]; decompose [and] O; repeat (split; [assumption|]); assumption|].
  destruct (str_eqb k (s2l "free")); [refine (gives_into _ _ (fun x => MkMem (e_all z) (e_used z) x (e_self z)) (fun b => plain _) _ _ (gives_uint 64) _); intros y Y; unfold mem_status_ok in *; cbn [e_all e_used e_free e_self]; decompose [and] O; repeat (split; [assumption|]); assumption|].
  destruct (str_eqb k (s2l "self")); [refine (gives_into _ _ (fun x => MkMem (e_all z) (e_used z) (e_free z) x) (fun b => plain _) _ _ (gives_uint 64) _); intros y Y; unfold mem_status_ok in *; cbn [e_all e_used e_free e_self]; decompose [and] O; repeat (split; [assumption|]); assumption|].
  apply gives_unknown. exact O.
Qed.

Lemma spare_mem_status : forall z, spare (unmarshal mem_status_field z).
Proof.
  apply spare_record. intros k z. unfold mem_status_field.
  destruct (str_eqb k (s2l "all")); [apply spare_into; exact (spare_plain _ _ _ (reads_uint 64))|].
  destruct (str_eqb k (s2l "used")); [apply spare_into; exact (spare_plain _ _ _ (reads_uint 64))|].
  destruct (str_eqb k (s2l "free")); [apply spare_into; exact (spare_plain _ _ _ (reads_uint 64))|].
  destruct (str_eqb k (s2l "self")); [apply spare_into; exact (spare_plain _ _ _ (reads_uint 64))|].
  apply spare_unknown.
Qed.

Definition cpu_stat_set (widen : N -> N) (k : str) (x : value) (z : cpu_stat) : option cpu_stat :=
  if str_eqb k (s2l "used_percent") then option_map (fun x => MkCpu x (p_logical z) (p_physical z)) (as_float widen x)
  else if str_eqb k (s2l "logical_count") then option_map (fun x => MkCpu (p_percent z) x (p_physical z)) (as_int 64 x)
  else if str_eqb k (s2l "physical_count") then option_map (fun x => MkCpu (p_percent z) (p_logical z) x) (as_int 64 x)
  else Some z.

Lemma cpu_stat_slots : forall widen, forall fs z, lay (cpu_stat_set widen) fs z = (Some MkCpu
    <*> slot (only (as_float widen)) "used_percent" fs (p_percent z)
    <*> slot (only (as_int 64)) "logical_count" fs (p_logical z)
    <*> slot (only (as_int 64)) "physical_count" fs (p_physical z)).
Proof. intros widen. slots_tac cpu_stat_set. Qed.

Lemma cpu_stat_is_field : forall widen, is_field (cpu_stat_field widen) (cpu_stat_set widen).
Proof.
  intros widen. intros k z. unfold cpu_stat_field, cpu_stat_set.
  destruct (str_eqb k (s2l "used_percent")); [exact (reads_into _ _ (fun x => MkCpu x (p_logical z) (p_physical z)) (fun b => plain _) _ (reads_float widen))|].
  destruct (str_eqb k (s2l "logical_count")); [exact (reads_into _ _ (fun x => MkCpu (p_percent z) x (p_physical z)) (fun b => plain _) _ (reads_int 64 ltac:(lia)))|].
  destruct (str_eqb k (s2l "physical_count")); [exact (reads_into _ _ (fun x => MkCpu (p_percent z) (p_logical z) x) (fun b => plain _) _ (reads_int 64 ltac:(lia)))|].
  apply reads_unknown.
Qed.

Theorem reads_cpu_stat : forall widen, forall z, reads (fun b => snd (unmarshal (cpu_stat_field widen) z b)) (fun x => cpu_stat_of widen x z).
Proof.
  intros widen. intros z. refine (reads_ext _ _ _ _ _ (fun _ => eq_refl) _ (reads_record _ _ _ (cpu_stat_is_field widen) z)).
  intros x. unfold cpu_stat_of, meaning. destruct x as [| | | | | | | | |l]; try reflexivity.
  destruct (names_of l) as [fs|]; [|reflexivity]. apply cpu_stat_slots.
Qed.

Lemma cpu_stat_packs : forall z, cpu_stat_ok z -> packs (cpu_stat_value z) (marshal_cpu_stat z).
Proof.
  intros z O. unfold cpu_stat_ok in O. decompose [and] O. clear O.
  unfold cpu_stat_value, marshal_cpu_stat. apply (packs_record _ _ 3); [reflexivity|reflexivity|].
  apply packs_named; [reflexivity|apply packs_float; assumption|].
  apply packs_named; [reflexivity|apply packs_int; assumption|].
  apply packs_last; [reflexivity|apply packs_int; assumption]. 
Qed.

Lemma cpu_stat_back : forall widen, forall z old, cpu_stat_ok z -> cpu_stat_of widen (cpu_stat_value z) old = Some z.
Proof.
  intros widen. intros z old O. unfold cpu_stat_ok in O. decompose [and] O. clear O.
  unfold cpu_stat_of, cpu_stat_value, meaning, named. cbn [names_of]. rewrite <- (cpu_stat_slots widen). cbn [lay]. unfold cpu_stat_set. closed_names.
  cbn [as_bool as_text as_float]. cbn [option_map p_percent p_logical p_physical].
  rewrite as_int_back by assumption. cbn [option_map p_percent p_logical p_physical].
  rewrite as_int_back by assumption. cbn [option_map p_percent p_logical p_physical].
  destruct z; reflexivity.
Qed.

Lemma zero_cpu_stat_ok : cpu_stat_ok zero_cpu_stat.
Proof. unfold cpu_stat_ok, zero_cpu_stat, fits_int, fits_uint, fits_text, fits_texts, fits_pointer, len. cbn. repeat split; try lia; constructor. Qed.

Lemma gives_cpu_stat : forall widen, (forall n, widen n < 2 ^ 64) -> forall z, cpu_stat_ok z -> gives (fun b => snd (unmarshal (cpu_stat_field widen) z b)) cpu_stat_ok.
Proof.
  intros widen W. apply gives_record. intros k z O. unfold cpu_stat_field.
  destruct (str_eqb k (s2l "used_percent")); [refine (gives_into _ _ (fun x => MkCpu x (p_logical z) (p_physical z)) (fun b => plain _) _ _ (gives_float widen W) _); intros y Y; unfold cpu_stat_ok in *; cbn [p_percent p_logical p_physical]; decompose [and] O; repeat (split; [assumption|]); assumption|].
  destruct (str_eqb k (s2l "logical_count")); [refine (gives_into _ _ (fun x => MkCpu (p_percent z) x (p_physical z)) (fun b => plain _) _ _ (gives_int 64) _); intros y Y; unfold cpu_stat_ok in *; cbn [p_percent p_logical p_physical]; decompose [and] O; repeat (split; [assumption|]); assumption|].
  destruct (str_eqb k (s2l "physical_count")); [refine (gives_into _ _ (fun x => MkCpu (p_percent z) (p_logical z) x) (fun b => plain _) _ _ (gives_int 64) _); intros y Y; unfold cpu_stat_ok in *; cbn [p_percent p_logical p_physical]; decompose [and] O; repeat (split; [assumption|]); assumption|].
  apply gives_unknown. exact O.
Qed.

Lemma spare_cpu_stat : forall widen, forall z, spare (unmarshal (cpu_stat_field widen) z).
Proof.
  intros widen. apply spare_record. intros k z. unfold cpu_stat_field.
  destruct (str_eqb k (s2l "used_percent")); [apply spare_into; exact (spare_plain _ _ _ (reads_float widen))|].
  destruct (str_eqb k (s2l "logical_count")); [apply spare_into; exact (spare_plain _ _ _ (reads_int 64 ltac:(lia)))|].
  destruct (str_eqb k (s2l "physical_count")); [apply spare_into; exact (spare_plain _ _ _ (reads_int 64 ltac:(lia)))|].
  apply spare_unknown.
Qed.

Definition system_info_set (widen : N -> N) (k : str) (x : value) (z : system_info) : option system_info :=
  if str_eqb k (s2l "DiskInfo") then option_map (fun x => MkSystem x (y_mem z) (y_cpu z) (y_io z)) (as_pointer zero_disk_info disk_info_of (y_disk z) x)
  else if str_eqb k (s2l "MemStatus") then option_map (fun x => MkSystem (y_disk z) x (y_cpu z) (y_io z)) (as_pointer zero_mem_status mem_status_of (y_mem z) x)
  else if str_eqb k (s2l "CpuStatus") then option_map (fun x => MkSystem (y_disk z) (y_mem z) x (y_io z)) (as_pointer zero_cpu_stat (cpu_stat_of widen) (y_cpu z) x)
  else if str_eqb k (s2l "IoStatus") then option_map (fun x => MkSystem (y_disk z) (y_mem z) (y_cpu z) x) (as_pointer zero_io_stats io_stats_of (y_io z) x)
  else Some z.

Lemma system_info_slots : forall widen, forall fs z, lay (system_info_set widen) fs z = (Some MkSystem
    <*> slot (as_pointer zero_disk_info disk_info_of) "DiskInfo" fs (y_disk z)
    <*> slot (as_pointer zero_mem_status mem_status_of) "MemStatus" fs (y_mem z)
    <*> slot (as_pointer zero_cpu_stat (cpu_stat_of widen)) "CpuStatus" fs (y_cpu z)
    <*> slot (as_pointer zero_io_stats io_stats_of) "IoStatus" fs (y_io z)).
Proof. intros widen. slots_tac system_info_set. Qed.

Lemma system_info_is_field : forall widen, is_field (system_info_field widen) (system_info_set widen).
Proof.
  intros widen. intros k z. unfold system_info_field, system_info_set.
  destruct (str_eqb k (s2l "DiskInfo")); [exact (reads_into _ _ (fun x => MkSystem x (y_mem z) (y_cpu z) (y_io z)) _ _ (reads_pointer _ _ _ _ reads_disk_info (fun _ => eq_refl) _))|].
  destruct (str_eqb k (s2l "MemStatus")); [exact (reads_into _ _ (fun x => MkSystem (y_disk z) x (y_cpu z) (y_io z)) _ _ (reads_pointer _ _ _ _ reads_mem_status (fun _ => eq_refl) _))|].
  destruct (str_eqb k (s2l "CpuStatus")); [exact (reads_into _ _ (fun x => MkSystem (y_disk z) (y_mem z) x (y_io z)) _ _ (reads_pointer _ _ _ _ (reads_cpu_stat widen) (fun _ => eq_refl) _))|].
  destruct (str_eqb k (s2l "IoStatus")); [exact (reads_into _ _ (fun x => MkSystem (y_disk z) (y_mem z) (y_cpu z) x) _ _ (reads_pointer _ _ _ _ reads_io_stats (fun _ => eq_refl) _))|].
  apply reads_unknown.
Qed.

Theorem reads_system_info : forall widen, forall z, reads (fun b => snd (unmarshal (system_info_field widen) z b)) (fun x => system_info_of widen x z).
Proof.
  intros widen. intros z. refine (reads_ext _ _ _ _ _ (fun _ => eq_refl) _ (reads_record _ _ _ (system_info_is_field widen) z)).
  intros x. unfold system_info_of, meaning. destruct x as [| | | | | | | | |l]; try reflexivity.
  destruct (names_of l) as [fs|]; [|reflexivity]. apply system_info_slots.
Qed.

Lemma system_info_packs : forall z, system_info_ok z -> packs (system_info_value z) (marshal_system_info z).
Proof.
  intros z O. unfold system_info_ok in O. decompose [and] O. clear O.
  unfold system_info_value, marshal_system_info. apply (packs_record _ _ 4); [reflexivity|reflexivity|].
  apply packs_named; [reflexivity|eapply (packs_pointer _ _ _ disk_info_ok); [exact disk_info_packs|assumption]|].
  apply packs_named; [reflexivity|eapply (packs_pointer _ _ _ mem_status_ok); [exact mem_status_packs|assumption]|].
  apply packs_named; [reflexivity|eapply (packs_pointer _ _ _ cpu_stat_ok); [exact cpu_stat_packs|assumption]|].
  apply packs_last; [reflexivity|eapply (packs_pointer _ _ _ io_stats_ok); [exact io_stats_packs|assumption]]. 
Qed.

Lemma system_info_back : forall widen, forall z old, system_info_ok z -> system_info_of widen (system_info_value z) old = Some z.
Proof.
  intros widen. intros z old O. unfold system_info_ok in O. decompose [and] O. clear O.
  unfold system_info_of, system_info_value, meaning, named. cbn [names_of]. rewrite <- (system_info_slots widen). cbn [lay]. unfold system_info_set. closed_names.
  rewrite (as_pointer_back _ _ _ disk_info_value disk_info_ok) by (exact disk_info_back || discriminate || assumption). cbn [option_map y_disk y_mem y_cpu y_io].
  rewrite (as_pointer_back _ _ _ mem_status_value mem_status_ok) by (exact mem_status_back || discriminate || assumption). cbn [option_map y_disk y_mem y_cpu y_io].
  rewrite (as_pointer_back _ _ _ cpu_stat_value cpu_stat_ok) by (exact (cpu_stat_back widen) || discriminate || assumption). cbn [option_map y_disk y_mem y_cpu y_io].
  rewrite (as_pointer_back _ _ _ io_stats_value io_stats_ok) by (exact io_stats_back || discriminate || assumption). cbn [option_map y_disk y_mem y_cpu y_io].
  destruct z; reflexivity.
Qed.

Lemma zero_system_info_ok : system_info_ok zero_system_info.
Proof. unfold system_info_ok, zero_system_info, fits_int, fits_uint, fits_text, fits_texts, fits_pointer, len. cbn. repeat split; try lia; constructor. Qed.

Lemma gives_system_info : forall widen, (forall n, widen n < 2 ^ 64) -> forall z, system_info_ok z -> gives (fun b => snd (unmarshal (system_info_field widen) z b)) system_info_ok.
Proof.
  intros widen W. apply gives_record. intros k z O. unfold system_info_field.
  destruct (str_eqb k (s2l "DiskInfo")); [refine (gives_into _ _ (fun x => MkSystem x (y_mem z) (y_cpu z) (y_io z)) _ _ _ (gives_pointer _ _ _ _ gives_disk_info zero_disk_info_ok _ _) _); [unfold system_info_ok in O; decompose [and] O; assumption|]; intros y Y; unfold system_info_ok in *; cbn [y_disk y_mem y_cpu y_io]; decompose [and] O; repeat (split; [assumption|]); assumption|].
  destruct (str_eqb k (s2l "MemStatus")); [refine (gives_into _ _ (fun x => MkSystem (y_disk z) x (y_cpu z) (y_io z)) _ _ _ (gives_pointer _ _ _ _ gives_mem_status zero_mem_status_ok _ _) _); [unfold system_info_ok in O; decompose [and] O; assumption|]; intros y Y; unfold system_info_ok in *; cbn [y_disk y_mem y_cpu y_io]; decompose [and] O; repeat (split; [assumption|]); assumption|].
  destruct (str_eqb k (s2l "CpuStatus")); [refine (gives_into _ _ (fun x => MkSystem (y_disk z) (y_mem z) x (y_io z)) _ _ _ (gives_pointer _ _ _ _ (gives_cpu_stat widen W) zero_cpu_stat_ok _ _) _); [unfold system_info_ok in O; decompose [and] O; assumption|]; intros y Y; unfold system_info_ok in *; cbn [y_disk y_mem y_cpu y_io]; decompose [and] O; repeat (split; [assumption|]); assumption|].
  destruct (str_eqb k (s2l "IoStatus")); [refine (gives_into _ _ (fun x => MkSystem (y_disk z) (y_mem z) (y_cpu z) x) _ _ _ (gives_pointer _ _ _ _ gives_io_stats zero_io_stats_ok _ _) _); [unfold system_info_ok in O; decompose [and] O; assumption|]; intros y Y; unfold system_info_ok in *; cbn [y_disk y_mem y_cpu y_io]; decompose [and] O; repeat (split; [assumption|]); assumption|].
  apply gives_unknown. exact O.
Qed.

Lemma spare_system_info : forall widen, forall z, spare (unmarshal (system_info_field widen) z).
Proof.
  intros widen. apply spare_record. intros k z. unfold system_info_field.
  destruct (str_eqb k (s2l "DiskInfo")); [apply spare_into; apply spare_pointer, spare_disk_info|].
  destruct (str_eqb k (s2l "MemStatus")); [apply spare_into; apply spare_pointer, spare_mem_status|].
  destruct (str_eqb k (s2l "CpuStatus")); [apply spare_into; apply spare_pointer, spare_cpu_stat|].
  destruct (str_eqb k (s2l "IoStatus")); [apply spare_into; apply spare_pointer, spare_io_stats|].
  apply spare_unknown.
Qed.
