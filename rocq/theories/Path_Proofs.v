(** Proofs about the path index. *)
From Verif Require Import Str_Model Str_Proofs Path_Model Path_Spec.
Local Notation length := List.length.

(** The text of a list of paths. *)
Fixpoint join (l : list str) : str :=
  match l with
  | [] => []
  | [x] => x
  | x :: r => x ++ sep :: join r
  end.

Definition repr (l : list str) : cell :=
  match l with [] => None | _ => Some (join (map encode_path l)) end.

Lemma encode_nosep : forall p, ~ In sep (encode_path p).
Proof.
  induction p as [|c p IH]; cbn; [tauto|].
  destruct (ascii_dec c sep); cbn.
  - intros [H|[H|[H|H]]]; try discriminate. auto.
  - intros [H|H]; auto.
Qed.

Lemma encode_nonempty : forall p, p <> [] -> encode_path p <> [].
Proof. intros [|c p] H; [congruence|]. cbn. destruct (ascii_dec c sep); discriminate. Qed.

Lemma encode_comma_free : forall p, ~ In sep p -> encode_path p = p.
Proof.
  induction p as [|c p IH]; cbn; intros H; [reflexivity|].
  destruct (ascii_dec c sep); [exfalso; auto|]. f_equal. auto.
Qed.

Lemma encode_app : forall a b, encode_path (a ++ b) = encode_path a ++ encode_path b.
Proof.
  induction a as [|c a IH]; intros b; cbn; [reflexivity|].
  destruct (ascii_dec c sep); rewrite IH; reflexivity.
Qed.

Lemma inside_cons : forall q c s, inside q s -> inside q (c :: s).
Proof. intros q c s (a & b & ->). exists (c :: a), b. reflexivity. Qed.

(** A first byte other than [%] of an encoded text is the path's own. *)
Lemma encode_head : forall p c r, encode_path p = c :: r -> c <> "%"%char ->
  exists p', p = c :: p' /\ r = encode_path p'.
Proof.
  intros [|x p] c r H Hc; cbn in H; [discriminate|].
  destruct (ascii_dec x sep).
  - cbn in H. injection H as H1 H2. congruence.
  - injection H as H1 H2. subst. eauto.
Qed.

Lemma decode_step : forall c1 c2 c3 r,
  decode_path (c1 :: c2 :: c3 :: r) =
  if str_eq_dec [c1; c2; c3] sep_enc then sep :: decode_path r else c1 :: decode_path (c2 :: c3 :: r).
Proof. reflexivity. Qed.

Lemma decode_encode : forall p, ~ inside sep_enc p -> decode_path (encode_path p) = p.
Proof.
  induction p as [|c p IH]; intros H; [reflexivity|].
  assert (Hp : ~ inside sep_enc p) by (intros X; apply H, inside_cons, X).
  specialize (IH Hp). cbn [encode_path].
  destruct (ascii_dec c sep) as [->|Hc].
  - change (sep_enc ++ encode_path p) with ("%"%char :: "2"%char :: "C"%char :: encode_path p).
    rewrite decode_step. destruct (str_eq_dec _ _) as [_|N]; [|exfalso; apply N; reflexivity].
    rewrite IH. reflexivity.
  - destruct (encode_path p) as [|c2 [|c3 r]] eqn:E.
    + cbn [decode_path] in IH |- *. congruence.
    + cbn [decode_path] in IH |- *. congruence.
    + rewrite decode_step.
      destruct (str_eq_dec [c; c2; c3] sep_enc) as [D|_].
      * exfalso. clear IH. injection D as D1 D2 D3. subst.
        apply encode_head in E as (p1 & -> & E); [|discriminate]. symmetry in E.
        apply encode_head in E as (p2 & -> & E); [|discriminate].
        apply H. exists [], p2. reflexivity.
      * f_equal. exact IH.
Qed.

Lemma encode_inj : forall p q, ~ inside sep_enc p -> ~ inside sep_enc q ->
  encode_path p = encode_path q -> p = q.
Proof. intros p q Hp Hq E. rewrite <- (decode_encode p Hp), <- (decode_encode q Hq), E. reflexivity. Qed.

Lemma join_cons : forall x l, l <> [] -> join (x :: l) = x ++ sep :: join l.
Proof. intros x [|y l] H; [congruence|reflexivity]. Qed.

Lemma join_app : forall a b, a <> [] -> b <> [] -> join (a ++ b) = join a ++ sep :: join b.
Proof.
  induction a as [|x a IH]; intros b Ha Hb; [congruence|].
  destruct a as [|y a].
  - cbn [app]. rewrite join_cons by exact Hb. reflexivity.
  - cbn [app]. rewrite (join_cons x (y :: a)) by discriminate.
    change (y :: a ++ b) with ((y :: a) ++ b).
    rewrite (join_cons x ((y :: a) ++ b)) by discriminate.
    rewrite IH by (discriminate || exact Hb).
    rewrite <- app_assoc. reflexivity.
Qed.

Lemma split_join : forall l, l <> [] -> (forall x, In x l -> ~ In sep x) ->
  split_on sep (join l) = l.
Proof.
  induction l as [|x l IH]; intros Hl H; [congruence|].
  destruct l as [|y l].
  - cbn. apply split_on_notin, H. left. reflexivity.
  - rewrite join_cons by discriminate. rewrite split_on_app by (apply H; left; reflexivity).
    f_equal. apply IH; [discriminate|]. intros z Hz. apply H. right. exact Hz.
Qed.

Lemma map_encode_nosep : forall l x, In x (map encode_path l) -> ~ In sep x.
Proof. intros l x H. apply in_map_iff in H as (p & <- & _). apply encode_nosep. Qed.

Lemma get_repr : forall l, Forall plain l -> path_get (repr l) = spec_get l.
Proof.
  intros l H. unfold path_get, repr, spec_get. destruct l as [|x l]; [reflexivity|].
  f_equal. rewrite split_join; [|discriminate|apply map_encode_nosep].
  rewrite map_map. rewrite <- (map_id (x :: l)) at 2. apply map_ext_in.
  intros p Hp. rewrite Forall_forall in H. apply decode_encode, H, Hp.
Qed.

Lemma cut_last_app : forall a b, ~ In sep b -> cut_last (a ++ sep :: b) = Some (a, b).
Proof.
  assert (Hn : forall b, ~ In sep b -> cut_last b = None).
  { induction b as [|c b IH]; cbn; intros H; [reflexivity|].
    rewrite IH by tauto. destruct (ascii_dec c sep); [exfalso; auto|reflexivity]. }
  induction a as [|c a IH]; intros b H; cbn [app cut_last].
  - rewrite Hn by exact H. destruct (ascii_dec sep sep); congruence.
  - rewrite IH by exact H. reflexivity.
Qed.

Lemma cut_last_none : forall b, ~ In sep b -> cut_last b = None.
Proof.
  induction b as [|c b IH]; cbn; intros H; [reflexivity|].
  rewrite IH by tauto. destruct (ascii_dec c sep); [exfalso; auto|reflexivity].
Qed.

Lemma cut_last_some : forall s a b, cut_last s = Some (a, b) -> s = a ++ sep :: b /\ ~ In sep b.
Proof.
  induction s as [|c s IH]; intros a b H; cbn in H; [discriminate|].
  destruct (cut_last s) as [[a' b']|] eqn:E.
  - injection H as <- <-. destruct (IH _ _ eq_refl) as [-> Hb]. split; [reflexivity|exact Hb].
  - destruct (ascii_dec c sep) as [->|]; [|discriminate]. injection H as <- <-.
    split; [reflexivity|]. intros Hin. apply in_split in Hin as (u & w & ->).
    clear IH. revert E. induction u as [|x u IH]; cbn.
    + destruct (cut_last w) as [[? ?]|]; [discriminate|]. destruct (ascii_dec sep sep); congruence.
    + destruct (cut_last (u ++ sep :: w)) as [[? ?]|]; [discriminate|]. intros _; apply IH; reflexivity.
Qed.

Lemma join_nonempty : forall l, l <> [] -> Forall plain l -> join (map encode_path l) <> [].
Proof.
  intros [|x l] Hl H; [congruence|]. inversion H as [|? ? [Hx _] _]; subst.
  apply encode_nonempty in Hx. cbn [map]. destruct (map encode_path l) as [|y r] eqn:E.
  - exact Hx.
  - rewrite join_cons by discriminate. intros X. apply app_eq_nil in X as [X _]. congruence.
Qed.

Lemma put_repr : forall l p, Forall plain l -> path_put (repr l) p = repr (l ++ [p]).
Proof.
  intros l p H. destruct l as [|x l]; [reflexivity|].
  pose proof (join_nonempty (x :: l) ltac:(discriminate) H) as Hn.
  unfold repr at 1. unfold path_put.
  destruct (join (map encode_path (x :: l))) as [|c r] eqn:E; [congruence|].
  rewrite <- E. unfold repr. destruct ((x :: l) ++ [p]) as [|y z] eqn:E2; [discriminate|].
  rewrite <- E2. rewrite map_app. f_equal. rewrite join_app by discriminate. reflexivity.
Qed.

Lemma last_repr : forall l, Forall plain l -> 2 <= length l -> path_last (repr l) = spec_last l.
Proof.
  intros l H Hl. assert (Hne : l <> []) by (intros ->; cbn in Hl; lia).
  destruct (exists_last Hne) as (a & p & ->).
  assert (Ha : a <> []) by (intros ->; cbn in Hl; lia).
  apply Forall_app in H as [Hpa Hp]. inversion Hp as [|? ? [Hp1 Hp2] _]; subst.
  unfold spec_last. rewrite last_last.
  assert (E : repr (a ++ [p]) = Some (join (map encode_path a) ++ sep :: encode_path p)).
  { unfold repr. destruct (a ++ [p]) eqn:E; [destruct a; discriminate|]. rewrite <- E.
    rewrite map_app, join_app; [reflexivity| |discriminate]. destruct a; discriminate || congruence. }
  rewrite E. unfold path_last. rewrite cut_last_app by apply encode_nosep.
  destruct (join (map encode_path a)) eqn:J; [exfalso; exact (join_nonempty a Ha Hpa J)|].
  rewrite decode_encode by exact Hp2. destruct (a ++ [p]) eqn:X; [destruct a; discriminate|reflexivity].
Qed.

Lemma last_single : forall p, path_last (repr [p]) = None.
Proof. intros p. unfold repr, path_last. cbn [map join]. rewrite cut_last_none by apply encode_nosep. reflexivity. Qed.

(** First occurrences. *)
Lemma strip_app : forall p s, strip p (p ++ s) = Some s.
Proof. induction p as [|c p IH]; intros s; cbn; [reflexivity|]. destruct (ascii_dec c c); [apply IH|congruence]. Qed.

Lemma strip_some : forall p s r, strip p s = Some r -> s = p ++ r.
Proof.
  induction p as [|c p IH]; intros s r H; cbn in H; [injection H as <-; reflexivity|].
  destruct s as [|y s]; [discriminate|]. destruct (ascii_dec c y) as [->|]; [|discriminate].
  apply IH in H. subst. reflexivity.
Qed.

Lemma cut_str_none : forall p s, ~ inside p s -> cut_str p s = None.
Proof.
  intros p s. induction s as [|c s IH]; intros H.
  - cbn. destruct (strip p []) as [r|] eqn:E; [|reflexivity].
    exfalso. apply H. apply strip_some in E. exists [], r. exact E.
  - cbn. destruct (strip p (c :: s)) as [r|] eqn:E.
    + exfalso. apply H. apply strip_some in E. exists [], r. exact E.
    + rewrite IH; [reflexivity|]. intros X. apply H, inside_cons, X.
Qed.

Lemma cut_str_first : forall p u w,
  (forall u' w', u ++ p ++ w = u' ++ p ++ w' -> length u <= length u') ->
  cut_str p (u ++ p ++ w) = Some (u, w).
Proof.
  intros p u w. induction u as [|c u IH]; intros H.
  - cbn [app]. destruct (p ++ w) as [|x y] eqn:E.
    + apply app_eq_nil in E as [-> ->]. reflexivity.
    + cbn. rewrite <- E, strip_app. reflexivity.
  - cbn [app cut_str]. destruct (strip p (c :: u ++ p ++ w)) as [r|] eqn:E.
    + apply strip_some in E. specialize (H [] r E). cbn in H. lia.
    + rewrite IH; [reflexivity|]. intros u' w' X. specialize (H (c :: u') w').
      cbn in H. rewrite X in H. specialize (H eq_refl). lia.
Qed.

Lemma cut_str_some : forall p s u w, cut_str p s = Some (u, w) -> s = u ++ p ++ w.
Proof.
  intros p s. induction s as [|c s IH]; intros u w H; cbn in H.
  - destruct (strip p []) as [r|] eqn:E; [|discriminate]. injection H as <- <-.
    apply strip_some in E. exact E.
  - destruct (strip p (c :: s)) as [r|] eqn:E.
    + injection H as <- <-. apply strip_some in E. exact E.
    + destruct (cut_str p s) as [[a b]|]; [|discriminate]. injection H as <- <-.
      rewrite (IH a b eq_refl). reflexivity.
Qed.

(** An occurrence of a separator-free text does not span a separator. *)
Lemma inside_sep : forall q x y a b, ~ In sep q -> q <> [] ->
  x ++ sep :: y = a ++ q ++ b ->
  inside q x \/ (exists a', a = x ++ sep :: a' /\ y = a' ++ q ++ b).
Proof.
  induction x as [|c x IH]; intros y a b Hq Hq0 E; cbn in E.
  - destruct a as [|d a]; cbn in E.
    + destruct q as [|d q]; [congruence|]. cbn in E. injection E as E1 E2. exfalso. apply Hq. left. congruence.
    + injection E as <- E2. right. exists a. split; [reflexivity|exact E2].
  - destruct a as [|d a]; cbn in E.
    + assert (P : forall q0 x0, ~ In sep q0 -> x0 ++ sep :: y = q0 ++ b -> exists r, x0 = q0 ++ r).
      { induction q0 as [|d q0 IHq]; intros x0 Hn E0; [exists x0; reflexivity|].
        destruct x0 as [|e x0]; cbn in E0; injection E0 as E1 E2.
        - exfalso. apply Hn. left. congruence.
        - subst. destruct (IHq x0) as [r ->]; [cbn in Hn; tauto|exact E2|].
          exists r. reflexivity. }
      destruct (P q (c :: x) Hq E) as [r Er]. left. exists [], r. exact Er.
    + injection E as <- E2. destruct (IH y a b Hq Hq0 E2) as [H|(a' & -> & Hy)].
      * left. apply inside_cons, H.
      * right. exists a'. split; [reflexivity|exact Hy].
Qed.

Lemma inside_join : forall l q, ~ In sep q -> q <> [] -> l <> [] ->
  (forall x, In x l -> ~ inside q x) -> ~ inside q (join l).
Proof.
  induction l as [|x l IH]; intros q Hq Hq0 Hl H; [congruence|].
  destruct l as [|y l].
  - cbn. apply H. left. reflexivity.
  - rewrite join_cons by discriminate. intros (a & b & E).
    destruct (inside_sep _ _ _ _ _ Hq Hq0 E) as [X|(a' & -> & Y)].
    + exact (H x (or_introl eq_refl) X).
    + apply (IH q Hq Hq0); [discriminate| |exists a', b; exact Y]. intros z Hz. apply H. right. exact Hz.
Qed.

(** The text before the entry at the end of [a]. *)
Definition before (a : list str) : str := match a with [] => [] | _ => join a ++ [sep] end.

Lemma before_cons : forall x a, before (x :: a) = x ++ sep :: before a.
Proof.
  intros x a. destruct a as [|y a]; cbn [before]; [reflexivity|].
  rewrite join_cons by discriminate. rewrite <- app_assoc. reflexivity.
Qed.

Lemma join_at : forall a p b, b <> [] -> join (a ++ p :: b) = before a ++ p ++ sep :: join b.
Proof.
  induction a as [|x a IH]; intros p b Hb.
  - cbn [app before]. rewrite join_cons by exact Hb. reflexivity.
  - cbn [app]. rewrite join_cons by (destruct a; discriminate). rewrite IH by exact Hb.
    rewrite before_cons, <- app_assoc. reflexivity.
Qed.

Lemma first_at : forall a q w u' w', ~ In sep q -> q <> [] -> (forall x, In x a -> ~ inside q x) ->
  before a ++ q ++ w = u' ++ q ++ w' -> length (before a) <= length u'.
Proof.
  induction a as [|x a IH]; intros q w u' w' Hq Hq0 H E; [cbn; lia|].
  rewrite before_cons in E |- *. rewrite <- app_assoc in E. cbn [app] in E.
  destruct (inside_sep _ _ _ _ _ Hq Hq0 E) as [X|(a' & -> & Y)].
  - exfalso. exact (H x (or_introl eq_refl) X).
  - rewrite !app_length. cbn. assert (length (before a) <= length a'); [|lia].
    apply (IH q w a' w' Hq Hq0); [|exact Y]. intros z Hz. apply H. right. exact Hz.
Qed.

Lemma trim_suffix_sep : forall s, trim_suffix (s ++ [sep]) = s.
Proof.
  induction s as [|c s IH]; [reflexivity|]. cbn [app].
  destruct (s ++ [sep]) as [|d r] eqn:E; [destruct s; discriminate|].
  change (trim_suffix (c :: d :: r)) with (c :: trim_suffix (d :: r)). rewrite IH. reflexivity.
Qed.

Lemma drop_first_at : forall a p b, ~ In p a -> drop_first p (a ++ p :: b) = a ++ b.
Proof.
  induction a as [|x a IH]; intros p b H; cbn.
  - destruct (str_eq_dec p p); congruence.
  - destruct (str_eq_dec x p) as [->|]; [exfalso; apply H; left; reflexivity|].
    f_equal. apply IH. intros X. apply H. right. exact X.
Qed.

Lemma drop_first_absent : forall l p, ~ In p l -> drop_first p l = l.
Proof.
  induction l as [|x l IH]; intros p H; cbn; [reflexivity|].
  destruct (str_eq_dec x p) as [->|]; [exfalso; apply H; left; reflexivity|].
  f_equal. apply IH. intros X. apply H. right. exact X.
Qed.

Lemma apart_neq : forall p l, (forall x, In x l -> apart p x) -> ~ In p l.
Proof. intros p l H X. apply (H p X). exists [], []. rewrite app_nil_r. reflexivity. Qed.

Lemma map_apart : forall p l, (forall x, In x l -> apart p x) ->
  forall x, In x (map encode_path l) -> ~ inside (encode_path p) x.
Proof. intros p l H x Hx. apply in_map_iff in Hx as (y & <- & Hy). apply H, Hy. Qed.

Lemma remove_repr : forall l p, Forall plain l -> plain p -> clean_remove p l ->
  path_remove (repr l) p = repr (drop_first p l).
Proof.
  intros l p Hl [Hp0 Hp1] [H|(a & b & -> & Hb & H)].
  - rewrite drop_first_absent by (apply apart_neq, H).
    destruct l as [|x l]; [reflexivity|]. unfold repr, path_remove.
    rewrite cut_str_none; [reflexivity|].
    apply inside_join; [apply encode_nosep|apply encode_nonempty, Hp0|discriminate|apply map_apart, H].
  - rewrite drop_first_at by (apply apart_neq, H).
    assert (R : repr (a ++ p :: b) = Some (before (map encode_path a) ++ encode_path p ++ sep :: join (map encode_path b))).
    { unfold repr. destruct (a ++ p :: b) eqn:E; [destruct a; discriminate|]. rewrite <- E.
      rewrite map_app. cbn [map]. f_equal. apply join_at. destruct b; discriminate || congruence. }
    rewrite R. unfold path_remove. rewrite cut_str_first.
    2:{ intros u' w' E. revert E. apply first_at; [apply encode_nosep|apply encode_nonempty, Hp0|apply map_apart, H]. }
    cbn [trim_prefix]. destruct (ascii_dec sep sep) as [_|N]; [|congruence].
    apply Forall_app in Hl as [Hla Hlb]. inversion Hlb as [|? ? _ Hlb']; subst.
    destruct a as [|x a].
    + cbn [map before trim_suffix app]. unfold repr. destruct b; [congruence|reflexivity].
    + cbn [map before]. change (encode_path x :: map encode_path a) with (map encode_path (x :: a)).
      rewrite trim_suffix_sep.
      pose proof (join_nonempty (x :: a) ltac:(discriminate) Hla) as Hn.
      destruct (join (map encode_path (x :: a))) as [|c r] eqn:E; [congruence|]. rewrite <- E.
      unfold repr. destruct ((x :: a) ++ b) eqn:E2; [discriminate|]. rewrite <- E2.
      rewrite map_app, join_app; [reflexivity|discriminate|destruct b; discriminate || congruence].
Qed.

Lemma drop_first_Forall : forall (P : str -> Prop) p l, Forall P l -> Forall P (drop_first p l).
Proof.
  intros P p l H. induction H as [|x l Hx Hl IH]; cbn; [constructor|].
  destruct (str_eq_dec x p); [exact Hl|constructor; assumption].
Qed.

Lemma clean_run : forall ops l, Forall plain l -> clean_history l ops ->
  fold_left path_step ops (repr l) = repr (fold_left spec_step ops l) /\
  Forall plain (fold_left spec_step ops l).
Proof.
  induction ops as [|o ops IH]; intros l Hl H; [split; [reflexivity|exact Hl]|].
  destruct o as [p|p|]; cbn [clean_history] in H; cbn [fold_left path_step spec_step].
  - destruct H as [Hp H]. rewrite put_repr by exact Hl. apply IH; [|exact H].
    apply Forall_app. split; [exact Hl|constructor; [exact Hp|constructor]].
  - destruct H as (Hp & Hc & H). rewrite remove_repr by assumption. apply IH; [|exact H].
    apply drop_first_Forall, Hl.
  - apply (IH [] (Forall_nil _) H).
Qed.

(** Facts about any text, for the data server's invariants. *)
Definition paths (v : cell) : list str := path_iterate v.

Lemma split_app_sep : forall s t, split_on sep (s ++ sep :: t) = split_on sep s ++ split_on sep t.
Proof.
  induction s as [|c s IH]; intros t; cbn [app split_on].
  - destruct (ascii_dec sep sep); [reflexivity|congruence].
  - destruct (ascii_dec c sep); rewrite IH; [reflexivity|].
    destruct (split_on sep s) eqn:E; [exfalso; exact (split_on_nonempty _ _ E)|reflexivity].
Qed.

Lemma split_nonsep : forall s, split_on sep s = [[]] -> s = [].
Proof.
  intros [|c s] H; [reflexivity|]. cbn in H. destruct (ascii_dec c sep).
  - injection H as H. exfalso. exact (split_on_nonempty _ _ H).
  - destruct (split_on sep s); discriminate.
Qed.

Lemma paths_put : forall v p, ~ inside sep_enc p ->
  paths (path_put v p) = match v with Some (_ :: _) => paths v ++ [p] | _ => [p] end.
Proof.
  intros v p H.
  assert (E : map decode_path (split_on sep (encode_path p)) = [p]).
  { rewrite split_on_notin by apply encode_nosep. cbn [map]. rewrite decode_encode by exact H. reflexivity. }
  destruct v as [[|c r]|]; cbn [path_put paths path_iterate]; try exact E.
  change (c :: r ++ sep :: encode_path p) with ((c :: r) ++ sep :: encode_path p).
  rewrite split_app_sep, map_app, E. reflexivity.
Qed.

Lemma path_last_in : forall v p, path_last v = Some p -> In p (paths v).
Proof.
  intros [s|] p H; [|discriminate]. unfold path_last in H.
  destruct (cut_last s) as [[[|c a] b]|] eqn:E; try discriminate. injection H as <-.
  apply cut_last_some in E as [-> Hb]. unfold paths, path_iterate.
  rewrite split_app_sep, map_app. apply in_or_app. right.
  rewrite split_on_notin by exact Hb. left. reflexivity.
Qed.

Lemma path_last_put : forall c r p, ~ inside sep_enc p -> path_last (path_put (Some (c :: r)) p) = Some p.
Proof.
  intros c r p H. unfold path_put, path_last.
  rewrite cut_last_app by apply encode_nosep. rewrite decode_encode by exact H. reflexivity.
Qed.

Lemma spec_puts : forall ps l, fold_left spec_step (map PPut ps) l = l ++ ps.
Proof.
  induction ps as [|p ps IH]; intros l; cbn; [symmetry; apply app_nil_r|].
  rewrite IH, <- app_assoc. reflexivity.
Qed.

Lemma clean_puts : forall ps l, Forall plain ps -> clean_history l (map PPut ps).
Proof.
  induction ps as [|p ps IH]; intros l H; cbn; [exact I|].
  inversion H; subst. split; [assumption|]. apply IH. assumption.
Qed.

Lemma puts_repr : forall ps, Forall plain ps -> path_run (map PPut ps) = repr ps.
Proof.
  intros ps H. unfold path_run. change (@None str) with (repr []).
  destruct (clean_run (map PPut ps) [] (Forall_nil _) (clean_puts _ _ H)) as [-> _].
  rewrite spec_puts. reflexivity.
Qed.

Lemma history_get : forall ops, clean_history [] ops ->
  path_get (path_run ops) = spec_get (spec_run ops).
Proof.
  intros ops H. unfold path_run, spec_run. change (@None str) with (repr []).
  destruct (clean_run ops [] (Forall_nil _) H) as [-> Hp]. apply get_repr, Hp.
Qed.

Lemma history_last : forall ops, clean_history [] ops -> 2 <= length (spec_run ops) ->
  path_last (path_run ops) = spec_last (spec_run ops).
Proof.
  intros ops H Hl. unfold path_run, spec_run in *. change (@None str) with (repr []).
  destruct (clean_run ops [] (Forall_nil _) H) as [-> Hp]. apply last_repr; assumption.
Qed.

Lemma remove_last_text : forall l p, l <> [] -> Forall plain l -> plain p ->
  (forall x, In x l -> apart p x) ->
  path_remove (repr (l ++ [p])) p = Some (join (map encode_path l) ++ [sep]).
Proof.
  intros l p Hl H [Hp0 Hp1] Ha.
  assert (Hm : map encode_path l <> []) by (intros X; apply map_eq_nil in X; congruence).
  assert (R : repr (l ++ [p]) = Some (before (map encode_path l) ++ encode_path p ++ [])).
  { unfold repr. destruct (l ++ [p]) eqn:E; [destruct l; discriminate|]. rewrite <- E.
    rewrite map_app, join_app by (exact Hm || discriminate). cbn [map join]. rewrite app_nil_r.
    destruct (map encode_path l) eqn:E2; [congruence|]. unfold before.
    rewrite <- app_assoc. reflexivity. }
  rewrite R. unfold path_remove. rewrite cut_str_first.
  2:{ intros u' w' E. revert E. apply first_at; [apply encode_nosep|apply encode_nonempty, Hp0|apply map_apart, Ha]. }
  cbn [trim_prefix]. pose proof (join_nonempty l Hl H) as Hn.
  replace (before (map encode_path l)) with (join (map encode_path l) ++ [sep])
    by (unfold before; destruct (map encode_path l); [congruence|reflexivity]).
  rewrite trim_suffix_sep.
  destruct (join (map encode_path l)) eqn:E; [congruence|reflexivity].
Qed.

Lemma remove_last_get : forall l p, l <> [] -> Forall plain l -> plain p ->
  (forall x, In x l -> apart p x) ->
  path_get (path_remove (path_run (map PPut (l ++ [p]))) p) = Some (l ++ [[]]) /\
  path_last (path_remove (path_run (map PPut (l ++ [p]))) p) = Some [].
Proof.
  intros l p Hl H Hp Ha. rewrite puts_repr by (apply Forall_app; split; [exact H|constructor; [exact Hp|constructor]]).
  rewrite remove_last_text by assumption. split.
  - cbn [path_get]. f_equal. rewrite split_app_sep, map_app. f_equal.
    rewrite split_join; [|intros X; apply map_eq_nil in X; congruence|apply map_encode_nosep].
    rewrite map_map. rewrite <- (map_id l) at 2. apply map_ext_in.
    intros x Hx. rewrite Forall_forall in H. apply decode_encode, H, Hx.
  - cbn [path_last]. rewrite cut_last_app by tauto.
    destruct (join (map encode_path l)) eqn:E; [exfalso; exact (join_nonempty l Hl H E)|reflexivity].
Qed.

Lemma remove_only_get : forall p, plain p ->
  path_get (path_remove (path_run [PPut p]) p) = Some [[]].
Proof.
  intros p [Hp0 Hp1]. change [PPut p] with (map PPut [p]).
  rewrite puts_repr by (constructor; [split; assumption|constructor]).
  unfold repr, path_remove. cbn [map join].
  replace (cut_str (encode_path p) (encode_path p)) with (Some (@nil ascii, @nil ascii)); [reflexivity|].
  symmetry. rewrite <- (app_nil_r (encode_path p)) at 2.
  apply (cut_str_first (encode_path p) [] []). cbn. lia.
Qed.
