From Coq Require Import List Arith ZArith Ascii Bool Lia Permutation.
From Verif Require Import Str_Model Str_Proofs Util_Model ListX Api_Model Api_Spec.
Import ListNotations.
Local Open Scope nat_scope.
Local Notation length := List.length.

Ltac inv H := inversion H; subst; clear H.

(** * Selection *)

Lemma set_at_split : forall A (a : list A) x b v, set_at (length a) v (a ++ x :: b) = a ++ v :: b.
Proof. induction a as [|y a IH]; intros; cbn; [reflexivity|]. now rewrite IH. Qed.

Lemma set_at_length : forall A i (v : A) l, length (set_at i v l) = length l.
Proof. intros A i v l. revert i. induction l as [|x l IH]; intros [|i]; cbn; auto. Qed.

Lemma set_at_nth : forall A i (v : A) l j d, i < length l ->
  nth j (set_at i v l) d = if j =? i then v else nth j l d.
Proof.
  intros A i v l. revert i. induction l as [|x l IH]; intros i j d H; [cbn in H; lia|].
  destruct i as [|i]; destruct j as [|j]; cbn; auto. apply IH. cbn in H. lia.
Qed.

Lemma pop_random_perm : forall A idx (ds : list A), idx < length ds ->
  exists rest ip, pop_random idx ds = Some (rest, ip) /\ Permutation ds (ip :: rest).
Proof.
  intros A idx ds H. unfold pop_random.
  destruct (nth_error ds idx) as [ip|] eqn:E; [|apply nth_error_None in E; lia].
  destruct (nth_error_split _ _ E) as (a & b & -> & <-).
  destruct (@exists_last _ (ip :: b)) as (b' & z & Hz); [discriminate|].
  assert (L : nth_error (a ++ ip :: b) (length (a ++ ip :: b) - 1) = Some z).
  { rewrite Hz. rewrite app_assoc, app_length. cbn [length]. rewrite nth_error_app2 by lia.
    replace _ with 0 by lia. reflexivity. }
  rewrite L. eexists _, _. split; [reflexivity|].
  rewrite set_at_split.
  replace (length (a ++ ip :: b) - 1) with (length (a ++ b)) by (rewrite !app_length; cbn; lia).
  destruct b' as [|y b'].
  - injection Hz as <- ->. rewrite !app_nil_r. rewrite firstn_app_le by lia.
    rewrite firstn_all. apply Permutation_sym, Permutation_cons_append.
  - injection Hz as <- Hb. subst b.
    replace (a ++ z :: b' ++ [z]) with ((a ++ z :: b') ++ [z]) by (rewrite <- app_assoc; reflexivity).
    replace (length (a ++ b' ++ [z])) with (length (a ++ z :: b')) by (rewrite !app_length; cbn; lia).
    rewrite firstn_app_exact.
    apply Permutation_sym, Permutation_cons_app. apply Permutation_app_head.
    apply Permutation_cons_append.
Qed.

Lemma pop_index_perm : forall A idx (ds : list A), idx < length ds ->
  exists rest ip, pop_index idx ds = Some (rest, ip) /\ Permutation ds (ip :: rest).
Proof.
  intros A idx ds H. unfold pop_index.
  destruct (nth_error ds idx) as [ip|] eqn:E; [|apply nth_error_None in E; lia].
  destruct ds as [|f ds]; [cbn in H; lia|].
  eexists _, _. split; [reflexivity|]. destruct idx as [|idx].
  - cbn. cbn in E. injection E as ->. reflexivity.
  - cbn in E. destruct (nth_error_split _ _ E) as (a & b & -> & <-). cbn. rewrite set_at_split.
    rewrite (perm_swap ip f (a ++ b)) at 1 || idtac.
    transitivity (f :: ip :: a ++ b).
    + constructor. apply Permutation_sym, Permutation_middle.
    + rewrite perm_swap. constructor. apply Permutation_middle.
Qed.

Lemma extremal_loop_lt : forall A (fn : A -> A -> bool) arr l i ex, ex < length arr -> length arr = i + length l ->
  extremal_loop fn arr i ex l < length arr.
Proof.
  intros A fn arr l. induction l as [|x l IH]; intros i ex H Hl; cbn; [exact H|].
  destruct (nth_error arr ex); [|exact H].
  cbn in Hl. destruct (fn a x); apply IH; lia.
Qed.

Lemma extremal_index_lt : forall A (fn : A -> A -> bool) arr, arr <> [] -> extremal_index fn arr < length arr.
Proof. intros A fn arr H. apply extremal_loop_lt; [destruct arr; [congruence|cbn; lia]|reflexivity]. Qed.

Lemma pop_perm : forall A (s : strategy A) ds, ds <> [] ->
  exists rest ip, pop s ds = Some (rest, ip) /\ Permutation ds (ip :: rest).
Proof.
  intros A s ds H. destruct s; cbn [pop].
  - apply pop_random_perm. apply Nat.mod_upper_bound. destruct ds; [congruence|discriminate].
  - apply pop_index_perm, extremal_index_lt, H.
  - apply pop_index_perm, extremal_index_lt, H.
Qed.

Section Spread.
Context {A : Type} (dec : forall x y : A, {x = y} + {x <> y}) (ds : list A).
Hypothesis Hne : ds <> [].
Hypothesis Hnd : NoDup ds.

Let b2n (used : list A) (x : A) := count_occ dec used x.

Lemma spread_loop : forall ss ips used, Permutation (ips ++ used) ds ->
  exists l, select_loop ss (ips, used) = Some l /\ length l = length ss /\ (forall x, In x l -> In x ds) /\
    forall x y, In x ds -> In y ds ->
      count_occ dec l x + count_occ dec used x <= count_occ dec l y + count_occ dec used y + 1.
Proof.
  induction ss as [|s ss IH]; intros ips used Hp.
  - exists []. cbn. repeat split; auto; try tauto. intros x y Hx Hy.
    assert (Hn : NoDup (ips ++ used)) by (eapply Permutation_NoDup; [apply Permutation_sym, Hp|exact Hnd]).
    pose proof (proj1 (NoDup_count_occ dec _) Hn x) as Hc. rewrite count_occ_app in Hc. lia.
  - cbn [select_loop ip_select].
    destruct ips as [|i0 ips].
    + cbn in Hp. destruct (pop_perm A s used) as (rest & ip & E & Pp).
      { intros ->. apply Permutation_nil in Hp. congruence. }
      rewrite E. destruct (IH rest ([] ++ [ip])) as (l & El & Hl & Hin & Hc).
      { rewrite <- Hp, Pp. cbn. apply Permutation_sym, Permutation_cons_append. }
      rewrite El. eexists; split; [reflexivity|]. cbn [length]. split; [now rewrite Hl|]. split.
      * intros x [<-|Hx]; [|auto]. apply (Permutation_in _ Hp), (Permutation_in _ (Permutation_sym Pp)). now left.
      * intros x y Hx Hy. specialize (Hc x y Hx Hy).
        assert (Hu : forall z, In z ds -> count_occ dec used z = 1).
        { intros z Hz. apply NoDup_count_occ'; [|apply (Permutation_in _ (Permutation_sym Hp)), Hz].
          eapply Permutation_NoDup; [apply Permutation_sym, Hp|exact Hnd]. }
        rewrite !Hu by assumption. revert Hc. cbn. destruct (dec ip x), (dec ip y); lia.
    + destruct (pop_perm A s (i0 :: ips)) as (rest & ip & E & Pp); [discriminate|].
      rewrite E. destruct (IH rest (used ++ [ip])) as (l & El & Hl & Hin & Hc).
      { rewrite <- Hp, Pp. cbn. rewrite app_assoc. apply Permutation_sym, Permutation_cons_append. }
      rewrite El. eexists; split; [reflexivity|]. cbn [length]. split; [now rewrite Hl|]. split.
      * intros x [<-|Hx]; [|auto]. apply (Permutation_in _ Hp), in_or_app. left.
        apply (Permutation_in _ (Permutation_sym Pp)). now left.
      * intros x y Hx Hy. specialize (Hc x y Hx Hy). revert Hc. rewrite !count_occ_app. cbn.
        destruct (dec ip x), (dec ip y); lia.
Qed.

Lemma spread : forall ss, exists l, select_servers ss ds = Some l /\ length l = length ss /\
  (forall x, In x l -> In x ds) /\
  forall x y, In x ds -> In y ds -> count_occ dec l x <= count_occ dec l y + 1.
Proof.
  intros ss. unfold select_servers. destruct ds as [|d ds'] eqn:Ed; [congruence|].
  rewrite <- Ed in *. destruct (spread_loop ss ds []) as (l & H1 & H2 & H3 & H4).
  - now rewrite app_nil_r.
  - exists l. repeat split; auto. intros x y Hx Hy. specialize (H4 x y Hx Hy). cbn in H4. lia.
Qed.
End Spread.

(** When the number of shards does not exceed the number of servers, no server gets two. *)
Lemma spread_distinct : forall A (ds : list A), (forall x y : A, {x = y} + {x <> y}) -> forall ss l,
  ds <> [] -> NoDup ds ->
  length ss <= length ds -> select_servers ss ds = Some l -> NoDup l.
Proof.
  intros A ds dec ss l Hne Hnd Hk E. destruct (spread dec ds Hne Hnd ss) as (l' & E' & Hlen & Hin & Hc).
  rewrite E in E'. injection E' as <-. apply (NoDup_count_occ dec). intros x.
  destruct (in_dec dec x l) as [Hx|Hx]; [|apply (count_occ_not_In dec) in Hx; lia].
  destruct (le_gt_dec (count_occ dec l x) 1) as [|Hgt]; [assumption|exfalso].
  (* then every server occurs, x twice: too long *)
  assert (Hall : forall y, In y ds -> In y l).
  { intros y Hy. apply (count_occ_In dec). specialize (Hc x y (Hin x Hx) Hy). lia. }
  destruct (in_split _ _ Hx) as (a & b & ->).
  assert (Hincl : incl ds (a ++ b)).
  { intros y Hy. destruct (dec x y) as [<-|Hxy].
    - apply (count_occ_In dec). rewrite count_occ_app in *. cbn in Hgt. destruct (dec x x); [lia|congruence].
    - specialize (Hall y Hy). apply in_app_or in Hall. apply in_or_app. destruct Hall as [|[|]]; auto. congruence. }
  pose proof (NoDup_incl_length Hnd Hincl) as Hl. rewrite app_length in *. cbn in Hlen. lia.
Qed.

(** * Authentication *)

Lemma has_prefix_iff : forall p s, has_prefix s p = true <-> exists t, s = p ++ t.
Proof.
  induction p as [|c p IH]; intros s; cbn.
  - split; [eauto|]. destruct s; auto.
  - destruct s as [|d s]; cbn.
    + split; [discriminate|]. intros (t & H). discriminate.
    + destruct (ascii_dec c d) as [->|Hn].
      * rewrite IH. split; intros (t & H); exists t; [now rewrite H|now injection H].
      * split; [discriminate|]. intros (t & H). injection H as -> _. congruence.
Qed.

Lemma wrap_fold_true : forall vs c, a_key c = true -> fold_left (fun c o => auth_wrap o c) vs c = c.
Proof. induction vs as [|o vs IH]; intros c H; cbn; [reflexivity|]. unfold auth_wrap at 2. rewrite H. now apply IH. Qed.

Lemma wrap_fold_key : forall vs c, a_key (fold_left (fun c o => auth_wrap o c) vs c) = true <->
  a_key c = true \/ exists o, In o vs /\ accepts o.
Proof.
  induction vs as [|o vs IH]; intros c; cbn.
  - split; [auto|]. intros [H|(o & [] & _)]; exact H.
  - rewrite IH. unfold auth_wrap. destruct (a_key c) eqn:E.
    + rewrite E. split; auto.
    + destruct o as [ok [e|]]; cbn; rewrite ?E; split.
      * intros [H|(o & Ho & Ha)]; [discriminate|]. right; eauto.
      * intros [H|(o & [<-|Ho] & Ha)]; [discriminate| |right; eauto]. destruct Ha as [_ Ha]; discriminate.
      * intros [->|(o & Ho & Ha)]; right; [|eauto]. eexists; split; [now left|]. now split.
      * intros [H|(o & [<-|Ho] & Ha)]; [discriminate| |right; eauto]. left. apply Ha.
Qed.

Lemma auth_passes : forall enable white path vs,
  auth_chain enable white path vs = None <->
  enable = false \/ white_listed white path \/ exists o, In o vs /\ accepts o.
Proof.
  intros enable white path vs. unfold auth_chain, after_auth.
  assert (H : a_key (fold_left (fun c o => auth_wrap o c) vs (pre_auth enable white path)) = true <->
    enable = false \/ white_listed white path \/ exists o, In o vs /\ accepts o).
  { rewrite wrap_fold_key. unfold pre_auth. destruct enable; cbn.
    - destruct (existsb (has_prefix path) white) eqn:E; cbn.
      + split; [intros _|auto]. right; left. apply existsb_exists in E. destruct E as (p & Hp & E).
        apply has_prefix_iff in E. destruct E as (t & ->). exists p, t. auto.
      + split; [intros [H|H]; [discriminate|auto]|]. intros [H|[(p & t & Hp & ->)|H]]; [discriminate| |auto].
        exfalso. assert (existsb (has_prefix (p ++ t)) white = true); [|congruence].
        apply existsb_exists. exists p. split; [exact Hp|]. apply has_prefix_iff. eauto.
    - split; auto. }
  destruct (a_key _); split; try tauto; try discriminate.
  intros Hx. apply H in Hx. discriminate.
Qed.

Lemma wrap_fold_err : forall vs c, a_key (fold_left (fun c o => auth_wrap o c) vs c) = false ->
  a_err (fold_left (fun c o => auth_wrap o c) vs c) =
  match fold_left (fun a o => match oc_err o with Some e => Some e | None => a end) vs None with
  | Some e => Some e | None => a_err c end.
Proof.
  assert (Hf : forall vs (a : option Z), fold_left (fun a o => match oc_err o with Some e => Some e | None => a end) vs a =
     match fold_left (fun a o => match oc_err o with Some e => Some e | None => a end) vs None with Some e => Some e | None => a end).
  { induction vs as [|o vs IH]; intros a; cbn; [reflexivity|]. destruct (oc_err o); [|apply IH].
    rewrite (IH (Some z)). destruct (fold_left _ vs None); reflexivity. }
  induction vs as [|o vs IH]; intros c; cbn; [reflexivity|]. intros H.
  assert (Ec : a_key c = false).
  { destruct (a_key c) eqn:E; [|reflexivity]. unfold auth_wrap in H at 2. rewrite E in H. rewrite wrap_fold_true in H by exact E. congruence. }
  rewrite IH by exact H. rewrite Hf. unfold auth_wrap. rewrite Ec.
  destruct (oc_err o); cbn; destruct (fold_left _ vs None) eqn:E2; try reflexivity; rewrite Hf, E2; reflexivity.
Qed.

(** The answer of a refusal: the last error a validator reported, else 403. *)
Lemma auth_refusal : forall enable white path vs e, auth_chain enable white path vs = Some e ->
  e = match fold_left (fun a o => match oc_err o with Some e => Some e | None => a end) vs None with
      | Some e => e | None => 403%Z end.
Proof.
  intros enable white path vs e H. unfold auth_chain, after_auth in H.
  destruct (a_key _) eqn:E; [discriminate|]. injection H as <-. rewrite wrap_fold_err by exact E.
  destruct (fold_left _ vs None) eqn:E2; [reflexivity|].
  assert (a_err (pre_auth enable white path) = Some 403%Z) as ->; [|reflexivity].
  unfold pre_auth in *. destruct enable; cbn in *.
  - destruct (existsb _ _); cbn in *; [|reflexivity].
    rewrite wrap_fold_true in E by reflexivity. discriminate.
  - rewrite wrap_fold_true in E by reflexivity. discriminate.
Qed.

Lemma password_accepts : forall enable basic g, accepts (password_mw enable basic g) <->
  enable = true /\ exists u p, basic = Some (u, p) /\ g = EGet (Some (mk_cred u p)).
Proof.
  intros enable basic g. unfold accepts, password_mw. destruct basic as [[u p]|]; cbn.
  - destruct enable; cbn.
    + destruct g as [|[[u' p']|]]; cbn.
      * split; [intros [? ?]; discriminate|]. intros (_ & ? & ? & _ & ?); discriminate.
      * destruct (str_eqb_spec u u') as [->|Hu]; cbn.
        -- destruct (str_eqb_spec p p') as [->|Hp]; cbn.
           ++ split; [intros _|auto]. split; [reflexivity|]. eauto.
           ++ split; [intros [? ?]; discriminate|]. intros (_ & ? & ? & H1 & H2). congruence.
        -- split; [intros [? ?]; discriminate|]. intros (_ & ? & ? & H1 & H2). congruence.
      * split; [intros [? ?]; discriminate|]. intros (_ & ? & ? & _ & ?); discriminate.
    + split; [intros [? ?]; discriminate|]. intros [? _]; discriminate.
  - split; [intros [? ?]; discriminate|]. intros (_ & ? & ? & ? & _); discriminate.
Qed.

Lemma callback_accepts : forall enable host hdr post, accepts (callback_mw enable host hdr post) <->
  enable = true /\ exists b, b <> [] /\ post b = None /\
    ((exists rest, host = b ++ "."%char :: rest /\ ~ In "."%char b) \/
     (b = hdr /\ (~ In "."%char host \/ exists rest, host = "."%char :: rest))).
Proof.
  intros enable host hdr post. unfold accepts, callback_mw. destruct enable; cbn [negb].
  2:{ cbn. split; [intros [? ?]; discriminate|]. intros [? _]; discriminate. }
  assert (Hask : forall b, (match post b with None => true | Some _ => false end = true /\ post b = None) <-> post b = None).
  { intros b. destruct (post b); split; auto; try discriminate. intros []; discriminate. }
  destruct (cut_on "."%char host) as [[b rest]|] eqn:E.
  - apply cut_on_some in E. destruct E as [-> Hb]. destruct b as [|c b].
    + destruct hdr as [|h hdr]; cbn.
      * split; [intros [? ?]; discriminate|]. intros (_ & b & Hne & _ & [(r & H & Hn)|(-> & _)]); [|congruence].
        destruct b as [|x b]; [congruence|]. cbn in H. injection H as <- _. exfalso. apply Hn. now left.
      * rewrite Hask. split.
        -- intros H. split; [reflexivity|]. exists (h :: hdr). split; [discriminate|]. split; [exact H|]. right. split; [reflexivity|]. right. eauto.
        -- intros (_ & b & Hne & Hp & [(r & H & Hn)|(-> & _)]); [|exact Hp].
           destruct b as [|x b]; [congruence|]. cbn in H. injection H as <- _. exfalso. apply Hn. now left.
    + cbn [oc_ok oc_err]. rewrite Hask. split.
      * intros H. split; [reflexivity|]. exists (c :: b). split; [discriminate|]. split; [exact H|]. left. eauto.
      * intros (_ & b' & Hne & Hp & [(r & H & Hn)|(-> & [H|(r & H)])]).
        -- assert (c :: b = b') as ->; [|exact Hp].
           pose proof (cut_on_app "."%char (c :: b) rest Hb) as E1. pose proof (cut_on_app "."%char b' r Hn) as E2.
           rewrite H in E1. rewrite E1 in E2. injection E2 as -> _. reflexivity.
        -- exfalso. apply H, in_or_app. right. now left.
        -- cbn in H. injection H as -> _. exfalso. apply Hb. now left.
  - assert (Hn : ~ In "."%char host).
    { intros Hi. apply in_split in Hi. destruct Hi as (a & b & ->).
      assert (G : forall a b, cut_on "."%char (a ++ "."%char :: b) <> None).
      { clear. induction a as [|x a IH]; intros b; cbn [app cut_on].
        - destruct (ascii_dec _ _); congruence.
        - destruct (ascii_dec _ _); [congruence|]. specialize (IH b). destruct (cut_on _ _) as [[]|]; congruence. }
      now apply G in E. }
    destruct hdr as [|h hdr]; cbn [oc_ok oc_err].
    + split; [intros [? ?]; discriminate|]. intros (_ & b & Hne & _ & [(r & -> & _)|(-> & _)]); [|congruence].
      exfalso. apply Hn, in_or_app. right. now left.
    + rewrite Hask. split.
      * intros H. split; [reflexivity|]. exists (h :: hdr). repeat split; auto. discriminate.
      * intros (_ & b & Hne & Hp & [(r & -> & _)|(-> & _)]); [|exact Hp].
        exfalso. apply Hn, in_or_app. right. now left.
Qed.

Lemma init_keeps : forall enable cfg put_fails c, pv_init enable cfg false put_fails (Some c) = Some c.
Proof. intros [] cfg pf c; reflexivity. Qed.

Lemma init_creates : forall enable cfg gf pf stored c, gf = false ->
  pv_init enable cfg gf pf stored = Some c -> stored = Some c \/
  (stored = None /\ c = cfg /\ cr_user c <> [] /\ cr_pass c <> []).
Proof.
  intros [] cfg gf pf stored c -> H; cbn in H; [|auto].
  destruct stored as [s|]; cbn in H; [auto|].
  destruct (str_eqb_spec (cr_user cfg) []) as [E|E]; cbn in H; [discriminate|].
  destruct (str_eqb_spec (cr_pass cfg) []) as [E2|E2]; cbn in H; [discriminate|].
  destruct pf; [discriminate|]. injection H as <-. auto.
Qed.

(** * Content names *)

Lemma print_Z_inj : forall a b, print_Z a = print_Z b -> a = b.
Proof.
  assert (Hneg : forall p n, "-"%char :: print_N (Npos p) <> print_N n).
  { intros p n H. apply (print_N_notin n "-"%char); [reflexivity|]. rewrite <- H. now left. }
  assert (E0 : forall a, (0 <= a)%Z -> print_Z a = print_N (Z.to_N a)) by apply print_Z_nonneg.
  intros a b H. destruct (Z_lt_le_dec a 0) as [Ha|Ha], (Z_lt_le_dec b 0) as [Hb|Hb].
  - destruct a; try lia. destruct b; try lia. unfold print_Z in H. injection H as H. apply (print_N_inj (Npos p) (Npos p0)) in H. congruence.
  - rewrite (E0 b Hb) in H. destruct a; try lia. now apply Hneg in H.
  - rewrite (E0 a Ha) in H. destruct b; try lia. symmetry in H. now apply Hneg in H.
  - rewrite (E0 a Ha), (E0 b Hb) in H. apply print_N_inj in H. lia.
Qed.

Lemma print_Z_nospace : forall z, ~ In " "%char (print_Z z).
Proof.
  intros [|p|p]; unfold print_Z; try (apply print_N_notin; reflexivity).
  intros [H|H]; [discriminate|]. revert H. apply (print_N_notin (Npos p)). reflexivity.
Qed.

Lemma last_sep : forall (sep : ascii) a b a' b', ~ In sep b -> ~ In sep b' ->
  a ++ sep :: b = a' ++ sep :: b' -> a = a' /\ b = b'.
Proof.
  intros sep. assert (G : forall a a' b b', ~ In sep b -> ~ In sep b' -> a ++ sep :: b = a' ++ sep :: b' -> length a <= length a' -> a = a' /\ b = b').
  { induction a as [|x a IH]; intros [|x' a'] b b' Hb Hb' H Hl; cbn in *.
    - injection H as ->. auto.
    - injection H as <- ->. exfalso. apply Hb, in_or_app. right. now left.
    - lia.
    - injection H as -> H. apply IH in H; auto; [|lia]. destruct H as [-> ->]. auto. }
  intros a b a' b' Hb Hb' H. destruct (le_ge_dec (length a) (length a')) as [Hl|Hl].
  - now apply G.
  - symmetry in H. destruct (G a' a b' b Hb' Hb H Hl) as [-> ->]. auto.
Qed.

Lemma unique_text_eq : forall d1 ss1 ds1 ps1 c1 d2 ss2 ds2 ps2 c2,
  unique_text d1 ss1 ds1 ps1 c1 = unique_text d2 ss2 ds2 ps2 c2 ->
  d1 ++ print_Z ss1 = d2 ++ print_Z ss2 /\ c1 = c2 /\
  (if (ss1 =? multi_rep)%Z then 0%Z else ds1) = (if (ss2 =? multi_rep)%Z then 0%Z else ds2) /\
  (if (ss1 =? multi_rep)%Z then 0%Z else ps1) = (if (ss2 =? multi_rep)%Z then 0%Z else ps2).
Proof.
  intros d1 ss1 ds1 ps1 c1 d2 ss2 ds2 ps2 c2 H. unfold unique_text in H.
  replace (if (ss1 =? multi_rep)%Z then (0%Z, 0%Z) else (ds1, ps1)) with
    (if (ss1 =? multi_rep)%Z then 0%Z else ds1, if (ss1 =? multi_rep)%Z then 0%Z else ps1) in H by (destruct (ss1 =? multi_rep)%Z; reflexivity).
  replace (if (ss2 =? multi_rep)%Z then (0%Z, 0%Z) else (ds2, ps2)) with
    (if (ss2 =? multi_rep)%Z then 0%Z else ds2, if (ss2 =? multi_rep)%Z then 0%Z else ps2) in H by (destruct (ss2 =? multi_rep)%Z; reflexivity).
  set (x1 := if (ss1 =? multi_rep)%Z then 0%Z else ds1) in *. set (y1 := if (ss1 =? multi_rep)%Z then 0%Z else ps1) in *.
  set (x2 := if (ss2 =? multi_rep)%Z then 0%Z else ds2) in *. set (y2 := if (ss2 =? multi_rep)%Z then 0%Z else ps2) in *.
  assert (R : forall (d p q r t : str), d ++ p ++ " "%char :: q ++ " "%char :: r ++ " "%char :: t =
             (((d ++ p) ++ " "%char :: q) ++ " "%char :: r) ++ " "%char :: t).
  { intros. repeat (rewrite <- !app_assoc; cbn [app]). reflexivity. }
  rewrite (R d1), (R d2) in H.
  assert (B : forall c : bool, ~ In " "%char (if c then s2l "true" else s2l "false")).
  { intros []; cbn; intuition discriminate. }
  apply last_sep in H; [|apply B|apply B]. destruct H as [H Hc].
  apply last_sep in H; [|apply print_Z_nospace|apply print_Z_nospace]. destruct H as [H Hp].
  apply last_sep in H; [|apply print_Z_nospace|apply print_Z_nospace]. destruct H as [H Hd].
  apply print_Z_inj in Hp, Hd. repeat split; auto.
  destruct c1, c2; try reflexivity; discriminate.
Qed.

Lemma app_cancel_l : forall (a a' b b' : str), length a = length a' -> a ++ b = a' ++ b' -> a = a' /\ b = b'.
Proof.
  induction a as [|x a IH]; intros [|x' a'] b b' Hl H; cbn in *; try lia; auto.
  injection H as -> H. apply IH in H; [|lia]. destruct H as [-> ->]. auto.
Qed.

Lemma one_digit : forall z, (0 <= z < 10)%Z -> length (print_Z z) = 1.
Proof.
  intros z H. assert (z = 0 \/ z = 1 \/ z = 2 \/ z = 3 \/ z = 4 \/ z = 5 \/ z = 6 \/ z = 7 \/ z = 8 \/ z = 9)%Z as Hz by lia.
  repeat (destruct Hz as [->|Hz]; [reflexivity|]). subst z. reflexivity.
Qed.

Lemma unique_same : forall d1 ss1 ds1 ps1 c1 d2 ss2 ds2 ps2 c2,
  length d1 = length d2 \/ (0 <= ss1 < 10 /\ 0 <= ss2 < 10)%Z ->
  unique_text d1 ss1 ds1 ps1 c1 = unique_text d2 ss2 ds2 ps2 c2 ->
  same_storage d1 d2 ss1 ds1 ps1 ss2 ds2 ps2 c1 c2.
Proof.
  intros d1 ss1 ds1 ps1 c1 d2 ss2 ds2 ps2 c2 Hl H. apply unique_text_eq in H. destruct H as (H & -> & Hd & Hp).
  assert (Hlen : length d1 = length d2).
  { destruct Hl as [Hl|[H1 H2]]; [exact Hl|]. apply (f_equal (@length ascii)) in H. rewrite !app_length in H.
    rewrite (one_digit ss1), (one_digit ss2) in H by assumption. lia. }
  apply app_cancel_l in H; [|exact Hlen]. destruct H as [-> H]. apply print_Z_inj in H. subst ss2.
  split; [reflexivity|]. split; [reflexivity|]. split; [reflexivity|].
  destruct (Z.eqb_spec ss1 multi_rep); [left; assumption|right; auto].
Qed.

Lemma make_version_policy : forall b cf v, (0 < p_strategy b)%Z ->
  let w := make_version b cf v in
  l_strategy w = p_strategy b /\ l_data w = p_data b /\ l_compress w = (p_compress b || l_compress v)%bool /\
  l_parity w = if (p_strategy b =? multi_rep)%Z then l_parity v else p_parity b.
Proof.
  intros b cf v H w. unfold w, make_version. destruct (Z.ltb_spec 0 (p_strategy b)) as [_|Hx]; [|lia].
  destruct (p_strategy b =? multi_rep)%Z; cbn; repeat split; destruct (p_compress b); reflexivity.
Qed.

(** * Locating *)

Lemma print_nat_hash : forall i, ~ In "#"%char (print_N (N.of_nat i)).
Proof. intros i. apply print_N_notin. reflexivity. Qed.

Lemma answer_iff : forall s hash key i r, ~ In "."%char hash -> ~ In "#"%char hash -> ~ In "#"%char key ->
  locate_answer (ds_has s) (ds_ip s) (locate_ask hash i key) = Some r <->
  ds_has s (shard_file hash i) = true /\ r = (key, ds_ip s ++ "#"%char :: print_N (N.of_nat i)).
Proof.
  intros s hash key i r Hd Hh Hk. unfold locate_answer, locate_ask, shard_file.
  replace (hash ++ "."%char :: print_N (N.of_nat i) ++ "#"%char :: key) with
    ((hash ++ "."%char :: print_N (N.of_nat i)) ++ "#"%char :: key) by (rewrite <- app_assoc; reflexivity).
  rewrite split_on_app.
  2:{ intros Hi. apply in_app_or in Hi. destruct Hi as [Hi|[Hi|Hi]]; [auto|discriminate|]. now apply print_nat_hash in Hi. }
  rewrite split_on_notin by exact Hk.
  rewrite split_on_app by exact Hd. rewrite split_on_notin by (apply print_N_notin; reflexivity).
  destruct (ds_has s _).
  - split; [intros H; injection H as <-; auto|]. intros [_ ->]. reflexivity.
  - split; [discriminate|]. intros [H _]. discriminate.
Qed.

Lemma locate_resp_ok : forall ip i, ~ In "#"%char ip -> (Z.of_nat i <= int64_max)%Z ->
  locate_resp (ip ++ "#"%char :: print_N (N.of_nat i)) = Some (ip, Z.of_nat i).
Proof.
  intros ip i Hip Hi. unfold locate_resp. rewrite split_on_app by exact Hip.
  rewrite split_on_notin by apply print_nat_hash. rewrite atoi_print_N by lia. do 2 f_equal. lia.
Qed.

Section Locate.
Context (svs : list dserver) (hash key : str) (shards : nat).
Hypothesis Hplain : plain hash key svs.
Hypothesis Hsh : (Z.of_nat shards <= int64_max)%Z.

Definition good_raw (raw : str) : Prop := exists s i, In s svs /\ i < shards /\
    locate_answer (ds_has s) (ds_ip s) (locate_ask hash i key) = Some (key, raw).

Lemma good_raw_spec : forall raw, good_raw raw -> exists ip i, i < shards /\ at_server svs hash ip i /\
  ~ In "#"%char ip /\ ip <> [] /\ raw = ip ++ "#"%char :: print_N (N.of_nat i) /\ locate_resp raw = Some (ip, Z.of_nat i).
Proof.
  intros raw (s & i & Hs & Hi & H). destruct Hplain as (P1 & P2 & P3 & P4). destruct (P4 s Hs) as [P5 P6].
  apply answer_iff in H; auto. destruct H as [Hx He]. injection He as ->.
  exists (ds_ip s), i. split; [exact Hi|]. split; [exists s; auto|]. split; [exact P5|]. split; [exact P6|].
  split; [reflexivity|]. apply locate_resp_ok; [exact P5|lia].
Qed.

Definition idx_of (raw : str) : nat := match locate_resp raw with Some (_, z) => Z.to_nat z | None => 0 end.
Definition ip_of (raw : str) : str := match locate_resp raw with Some (ip, _) => ip | None => [] end.

Lemma batch_spec : forall raws l cnt, length l = shards -> Forall good_raw raws ->
  exists l', locate_batch raws l cnt = Some (l', cnt + length raws) /\ length l' = shards /\
    (forall i, i < shards -> (nth i l' [] = nth i l [] /\ ~ In i (map idx_of raws)) \/
       exists raw, In raw raws /\ idx_of raw = i /\ nth i l' [] = ip_of raw).
Proof.
  induction raws as [|raw raws IH]; intros l cnt Hl Hg; cbn [locate_batch].
  - exists l. rewrite Nat.add_0_r. split; [reflexivity|]. split; [exact Hl|]. intros i _. left. auto.
  - inv Hg. destruct (good_raw_spec raw H1) as (ip & i & Hi & _ & _ & _ & _ & E).
    rewrite E. destruct (Z.leb_spec 0 (Z.of_nat i)); [|lia]. rewrite Hl.
    destruct (Z.ltb_spec (Z.of_nat i) (Z.of_nat shards)); [|lia]. cbn [andb].
    rewrite Nat2Z.id.
    destruct (IH (set_at i ip l) (S cnt)) as (l' & E' & Hl' & Hn); [now rewrite set_at_length|assumption|].
    exists l'. rewrite E'. split; [f_equal; f_equal; cbn; lia|]. split; [exact Hl'|].
    intros j Hj. destruct (Hn j Hj) as [[Hx Hy]|(r & Hr & Hx & Hy)].
    + rewrite set_at_nth in Hx by lia. destruct (Nat.eqb_spec j i) as [->|Hji].
      * right. exists raw. split; [now left|]. unfold idx_of, ip_of. rewrite E. rewrite Nat2Z.id. auto.
      * left. split; [exact Hx|]. cbn. intros [Ha|Ha]; [|auto]. unfold idx_of in Ha. rewrite E, Nat2Z.id in Ha. auto.
    + right. exists r. split; [now right|]. auto.
Qed.

Definition filled (seen : list str) (l : list str) : Prop :=
  length l = shards /\ forall i, i < shards ->
    (nth i l [] = [] /\ ~ In i (map idx_of seen)) \/ exists raw, In raw seen /\ idx_of raw = i /\ nth i l [] = ip_of raw.

Lemma loop_spec : forall evs l seen, filled seen l -> Forall good_raw (answers evs) ->
  match locate_loop evs l (length seen) with
  | LPanic => False
  | LFound l' => exists pre post, answers evs = pre ++ post /\ filled (seen ++ pre) l' /\ shards <= length (seen ++ pre)
  | _ => True
  end.
Proof.
  induction evs as [|e evs IH]; intros l seen [Hl Hf] Hg; cbn [locate_loop]; rewrite Hl;
    destruct (Nat.leb_spec shards (length seen)) as [Hle|Hlt].
  - exists [], []. rewrite !app_nil_r. split; [reflexivity|]. split; [split; assumption|exact Hle].
  - exact I.
  - exists [], (answers (e :: evs)). rewrite !app_nil_r. split; [reflexivity|]. split; [split; assumption|exact Hle].
  - destruct e as [raws| | |]; try exact I.
    unfold answers in Hg. cbn [map List.concat] in Hg. rewrite Forall_app in Hg. destruct Hg as [Hg1 Hg2].
    destruct (batch_spec raws l (length seen) Hl Hg1) as (l' & E & Hl' & Hn). rewrite E.
    replace (length seen + length raws) with (length (seen ++ raws)) by (rewrite app_length; lia).
    assert (Hf' : filled (seen ++ raws) l').
    { split; [exact Hl'|]. intros i Hi. destruct (Hn i Hi) as [[Hx Hy]|(r & Hr & Hx & Hy)].
      - destruct (Hf i Hi) as [[Ha Hb]|(r & Hr & Ha & Hb)].
        + left. split; [congruence|]. rewrite map_app. intros Hc. apply in_app_or in Hc. tauto.
        + right. exists r. split; [apply in_or_app; auto|]. split; [exact Ha|congruence].
      - right. exists r. split; [apply in_or_app; auto|]. auto. }
    specialize (IH l' (seen ++ raws) Hf' Hg2). destruct (locate_loop evs l' _); auto.
    destruct IH as (pre & post & E1 & Hf2 & Hle2). exists (raws ++ pre), post.
    unfold answers in *. cbn [map List.concat]. rewrite E1, !app_assoc. split; [reflexivity|]. split; [exact Hf2|exact Hle2].
Qed.

Lemma filled_init : filled [] (repeat [] shards).
Proof.
  split; [apply repeat_length|]. intros i Hi. left. split; [|auto].
  destruct (nth_in_or_default i (repeat ([] : str) shards) []) as [H|H]; [|exact H]. apply repeat_spec in H. exact H.
Qed.

Lemma locate_found : forall evs l, Forall good_raw (answers evs) -> locate_object shards evs = LFound l ->
  exists pre post, answers evs = pre ++ post /\ filled pre l /\ shards <= length pre.
Proof.
  intros evs l Hg H. pose proof (loop_spec evs (repeat [] shards) [] filled_init Hg) as L.
  unfold locate_object in H. cbn [length] in L. rewrite H in L. exact L.
Qed.

Lemma locate_no_panic : forall evs, Forall good_raw (answers evs) -> locate_object shards evs <> LPanic.
Proof.
  intros evs Hg H. pose proof (loop_spec evs (repeat [] shards) [] filled_init Hg) as L.
  unfold locate_object in H. cbn [length] in L. rewrite H in L. exact L.
Qed.

Lemma filled_sound : forall seen l i, Forall good_raw seen -> filled seen l -> i < shards ->
  nth i l [] = [] \/ at_server svs hash (nth i l []) i.
Proof.
  intros seen l i Hg [Hl Hf] Hi. destruct (Hf i Hi) as [[H _]|(raw & Hr & Hx & Hy)]; [auto|right].
  rewrite Forall_forall in Hg. destruct (good_raw_spec raw (Hg raw Hr)) as (ip & j & Hj & Hs & _ & _ & _ & E).
  unfold idx_of, ip_of in *. rewrite E in *. rewrite Nat2Z.id in Hx. subst j. rewrite Hy. exact Hs.
Qed.

(** One holder per shard and each answer once: the indices are distinct. *)
Lemma idx_nodup : forall seen, Forall good_raw seen -> NoDup seen ->
  (forall i ip ip', at_server svs hash ip i -> at_server svs hash ip' i -> ip = ip') ->
  NoDup (map idx_of seen).
Proof.
  induction seen as [|raw seen IH]; intros Hg Hn Hu; cbn; [constructor|]. inv Hg. inv Hn.
  constructor; [|auto]. intros Hi. apply in_map_iff in Hi. destruct Hi as (r & Hx & Hr).
  rewrite Forall_forall in H2. destruct (good_raw_spec raw H1) as (ip & j & Hj & Hs & _ & _ & E0 & E).
  destruct (good_raw_spec r (H2 r Hr)) as (ip' & j' & Hj' & Hs' & _ & _ & E0' & E').
  unfold idx_of in Hx. rewrite E, E', !Nat2Z.id in Hx. subst j'.
  assert (ip = ip') by eauto. subst ip'. rewrite <- E0 in E0'. subst r. contradiction.
Qed.

Lemma idx_bound : forall seen, Forall good_raw seen -> Forall (fun i => i < shards) (map idx_of seen).
Proof.
  intros seen Hg. rewrite Forall_forall in *. intros i Hi. apply in_map_iff in Hi. destruct Hi as (r & <- & Hr).
  destruct (good_raw_spec r (Hg r Hr)) as (ip & j & Hj & _ & _ & _ & _ & E). unfold idx_of. rewrite E, Nat2Z.id. exact Hj.
Qed.

Lemma locate_complete : forall evs l, Forall good_raw (answers evs) -> NoDup (answers evs) ->
  (forall i ip ip', at_server svs hash ip i -> at_server svs hash ip' i -> ip = ip') ->
  locate_object shards evs = LFound l ->
  length l = shards /\ forall i, i < shards -> at_server svs hash (nth i l []) i.
Proof.
  intros evs l Hg Hn Hu H. destruct (locate_found evs l Hg H) as (pre & post & E & Hf & Hle).
  rewrite E in Hg, Hn. rewrite Forall_app in Hg. destruct Hg as [Hg _].
  assert (Hn' : NoDup pre).
  { clear -Hn. induction pre as [|x pre IH]; [constructor|]. cbn in Hn. inv Hn. constructor; [|auto].
    intros Hi. apply H1, in_or_app. auto. }
  pose proof (idx_nodup pre Hg Hn' Hu) as Hnd. pose proof (idx_bound pre Hg) as Hb.
  assert (Hall : forall i, i < shards -> In i (map idx_of pre)).
  { intros i Hi. assert (Hincl : incl (map idx_of pre) (seq 0 shards)).
    { intros j Hj. rewrite Forall_forall in Hb. apply in_seq. specialize (Hb j Hj). lia. }
    assert (Hrev : incl (seq 0 shards) (map idx_of pre)).
    { apply NoDup_length_incl; auto. rewrite seq_length, map_length. exact Hle. }
    apply Hrev, in_seq. lia. }
  split; [apply Hf|]. intros i Hi. destruct (filled_sound pre l i Hg Hf Hi) as [Hz|Hz]; [exfalso|exact Hz].
  destruct Hf as [Hl Hf]. destruct (Hf i Hi) as [[_ Hx]|(raw & Hr & Hx & Hy)].
  - exact (Hx (Hall i Hi)).
  - rewrite Forall_forall in Hg. destruct (good_raw_spec raw (Hg raw Hr)) as (ip & j & Hj & _ & _ & Hne & _ & E').
    unfold ip_of in Hy. rewrite E' in Hy. congruence.
Qed.

(** Enough answers before anything else end the wait with success. *)
Lemma locate_live : forall batches, Forall good_raw (List.concat batches) -> shards <= length (List.concat batches) ->
  exists l, locate_object shards (map LBatch batches) = LFound l.
Proof.
  intros batches Hg Hle. unfold locate_object.
  assert (G : forall batches l cnt, length l = shards -> Forall good_raw (List.concat batches) ->
    shards <= cnt + length (List.concat batches) -> exists l', locate_loop (map LBatch batches) l cnt = LFound l').
  { clear batches Hg Hle. induction batches as [|b bs IH]; intros l cnt Hl Hg Hle; cbn [map locate_loop]; rewrite Hl.
    - destruct (Nat.leb_spec shards cnt); [eauto|]. cbn in Hle. lia.
    - destruct (Nat.leb_spec shards cnt); [eauto|]. cbn [List.concat] in *. rewrite Forall_app in Hg. destruct Hg as [H1 H2].
      destruct (batch_spec b l cnt Hl H1) as (l' & E & Hl' & _). rewrite E. apply IH; auto.
      rewrite app_length in Hle. lia. }
  apply G; auto. apply repeat_length.
Qed.
End Locate.
