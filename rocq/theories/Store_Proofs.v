(** Proofs about the data server. *)
From Verif Require Import Str_Model Str_Proofs Path_Model Path_Spec Path_Proofs Reader_Model Reader_Proofs Store_Model Store_Spec.
Local Notation length := List.length.

(** Removing an entry that stands inside no other leaves the other entries and
    perhaps an empty one. *)
Lemma split_inv : forall s, join (split_on sep s) = s /\ (forall x, In x (split_on sep s) -> ~ In sep x).
Proof.
  induction s as [|c s [IH1 IH2]]; cbn [split_on].
  - split; [reflexivity|]. intros x [<-|[]]. intros [].
  - destruct (ascii_dec c sep) as [->|Hc].
    + split.
      * rewrite join_cons by apply split_on_nonempty. rewrite IH1. reflexivity.
      * intros x [<-|Hx]; [intros []|apply IH2, Hx].
    + destruct (split_on sep s) as [|w ws] eqn:E; [exfalso; exact (split_on_nonempty _ _ E)|].
      split.
      * rewrite <- IH1. destruct ws; reflexivity.
      * intros x [<-|Hx].
        -- intros [X|X]; [congruence|]. exact (IH2 w (or_introl eq_refl) X).
        -- apply IH2. right. exact Hx.
Qed.

(** The text after an entry. *)
Definition after (b : list str) : str := match b with [] => [] | _ => sep :: join b end.

(** Where an occurrence of a separator-free text stands. *)
Lemma occurrence : forall l q u w, ~ In sep q -> q <> [] -> l <> [] -> join l = u ++ q ++ w ->
  exists a x b x1 x2, l = a ++ x :: b /\ x = x1 ++ q ++ x2 /\ u = before a ++ x1 /\
    w = x2 ++ after b.
Proof.
  induction l as [|x l IH]; intros q u w Hq Hq0 Hl E; [congruence|].
  destruct l as [|y l].
  - cbn in E. exists [], x, [], u, w. repeat split; try assumption. symmetry. apply app_nil_r.
  - rewrite join_cons in E by discriminate.
    destruct (list_eq_dec ascii_dec (firstn (length x + 1) u) (x ++ [sep])) as [D|D].
    + assert (U : u = (x ++ [sep]) ++ skipn (length x + 1) u) by (rewrite <- D; symmetry; apply firstn_skipn).
      rewrite U in E. rewrite <- !app_assoc in E. apply app_inv_head in E. cbn [app] in E. injection E as E.
      destruct (IH q _ w Hq Hq0 ltac:(discriminate) E) as (a & z & b & x1 & x2 & H1 & H2 & H3 & H4).
      exists (x :: a), z, b, x1, x2. split; [cbn; congruence|]. split; [exact H2|]. split; [|exact H4].
      rewrite before_cons. rewrite U, H3. rewrite <- !app_assoc. reflexivity.
    + (* the occurrence ends inside x *)
      assert (P : exists x2, x = u ++ q ++ x2 /\ w = x2 ++ sep :: join (y :: l)).
      { clear IH. revert u E D. induction x as [|c x IHx]; intros u E D.
        - destruct u as [|d u]; cbn in E.
          + destruct q as [|d q]; [congruence|]. injection E as E1 E2. exfalso. apply Hq. left. congruence.
          + injection E as <- E. exfalso. apply D. reflexivity.
        - destruct u as [|d u].
          + cbn [app]. clear D IHx. revert E. generalize (c :: x). intros z E.
            clear c x Hl. revert z E. induction q as [|e q IHq]; intros z E.
            * exists z. split; [reflexivity|]. cbn in E. congruence.
            * destruct z as [|f z]; cbn in E; injection E as E1 E2.
              -- exfalso. apply Hq. left. congruence.
              -- subst f. destruct q as [|g q].
                 ++ exists z. split; [reflexivity|]. symmetry; exact E2.
                 ++ destruct (IHq ltac:(cbn in Hq |- *; tauto) ltac:(discriminate) z E2) as (x2 & -> & ->).
                    exists x2. split; reflexivity.
          + cbn in E. injection E as <- E. destruct (IHx ltac:(discriminate) u E) as (x2 & -> & ->).
            * intros X. apply D. cbn. congruence.
            * exists x2. split; reflexivity. }
      destruct P as (x2 & -> & ->). exists [], (u ++ q ++ x2), (y :: l), u, x2. repeat split.
Qed.

(** The entries of a cell as stored. *)
Definition raw (v : cell) : list str := match v with Some s => split_on sep s | None => [] end.

Lemma raw_remove : forall v p, p <> [] ->
  (forall x, In x (raw v) -> inside (encode_path p) x -> x = encode_path p) ->
  forall y, In y (raw (path_remove v p)) -> y = [] \/ In y (raw v).
Proof.
  intros [s|] p Hp H y Hy; [|right; exact Hy]. unfold path_remove in Hy.
  destruct (cut_str (encode_path p) s) as [[u w]|] eqn:E; [|right; exact Hy].
  apply cut_str_some in E. destruct (split_inv s) as [J1 J2]. rewrite <- J1 in E.
  destruct (occurrence _ _ _ _ (encode_nosep p) (encode_nonempty _ Hp) (split_on_nonempty _ _) E)
    as (a & x & b & x1 & x2 & H1 & H2 & H3 & H4).
  assert (X : x = encode_path p).
  { apply H; [unfold raw; rewrite H1; apply in_or_app; right; left; reflexivity|]. exists x1, x2. exact H2. }
  assert (x1 = [] /\ x2 = []) as [-> ->].
  { rewrite X in H2. assert (L : length (encode_path p) = length x1 + (length (encode_path p) + length x2))
      by (rewrite H2 at 1; rewrite !app_length; reflexivity).
    destruct x1, x2; cbn in L; try lia. split; reflexivity. }
  rewrite app_nil_r in H3. cbn [app] in H4. subst u w.
  assert (Ha : forall z, In z a -> ~ In sep z) by (intros z Hz; apply J2; rewrite H1; apply in_or_app; left; exact Hz).
  assert (Hb : forall z, In z b -> ~ In sep z) by (intros z Hz; apply J2; rewrite H1; apply in_or_app; right; right; exact Hz).
  assert (Hab : forall z, In z a \/ In z b -> In z (raw (Some s))).
  { intros z Hz. unfold raw. rewrite H1. apply in_or_app. destruct Hz; [left|right; right]; assumption. }
  assert (Tb : trim_prefix (after b) = join b).
  { destruct b; [reflexivity|]. cbn [after trim_prefix]. destruct (ascii_dec sep sep); congruence. }
  cbv zeta in Hy. rewrite Tb in Hy.
  assert (Ta : trim_suffix (before a) = join a) by (destruct a; [reflexivity|apply trim_suffix_sep]).
  rewrite Ta in Hy.
  assert (Sb : forall z, In z (split_on sep (join b)) -> z = [] \/ In z b).
  { intros z Hz. destruct b as [|b0 b]; [cbn in Hz; destruct Hz as [<-|[]]; left; reflexivity|].
    rewrite split_join in Hz by (discriminate || exact Hb). right. exact Hz. }
  unfold raw in Hy. rename y into z, Hy into Hz.
  destruct (join a) as [|c r] eqn:Ja.
  - apply Sb in Hz as [->|Hz]; [left; reflexivity|right; apply Hab; right; exact Hz].
  - rewrite <- Ja in Hz. rewrite split_app_sep in Hz. apply in_app_or in Hz as [Hz|Hz].
    + rewrite split_join in Hz; [right; apply Hab; left; exact Hz| |exact Ha]. intros ->. discriminate.
    + apply Sb in Hz as [->|Hz]; [left; reflexivity|right; apply Hab; right; exact Hz].
Qed.

(** Removing the empty path drops at most a leading empty entry. *)
Lemma raw_remove_nil : forall v y, In y (raw (path_remove v [])) -> y = [] \/ In y (raw v).
Proof.
  intros [s|] y Hy; [|right; exact Hy]. unfold path_remove in Hy.
  assert (E : cut_str (encode_path []) s = Some ([], s)) by (destruct s; reflexivity).
  rewrite E in Hy. cbn [trim_suffix] in Hy. destruct s as [|c s]; [right; exact Hy|].
  cbn [trim_prefix] in Hy. destruct (ascii_dec c sep) as [->|]; [|right; exact Hy].
  right. unfold raw in *. cbn [split_on]. destruct (ascii_dec sep sep); [|congruence].
  right. exact Hy.
Qed.

Lemma raw_put : forall v p y, In y (raw (path_put v p)) -> y = encode_path p \/ In y (raw v).
Proof.
  intros v p y H.
  assert (E : split_on sep (encode_path p) = [encode_path p]) by (apply split_on_notin, encode_nosep).
  destruct v as [[|c r]|]; cbn [path_put raw] in H.
  - rewrite E in H. destruct H as [<-|[]]. left. reflexivity.
  - change (c :: r ++ sep :: encode_path p) with ((c :: r) ++ sep :: encode_path p) in H.
    rewrite split_app_sep in H. apply in_app_or in H as [H|H]; [right; exact H|].
    rewrite E in H. destruct H as [<-|[]]. left. reflexivity.
  - rewrite E in H. destruct H as [<-|[]]. left. reflexivity.
Qed.

Lemma raw_last : forall v p, path_last v = Some p -> exists x, In x (raw v) /\ p = decode_path x.
Proof.
  intros v p H. apply path_last_in in H. destruct v as [s|]; [|destruct H].
  unfold paths, path_iterate in H. apply in_map_iff in H as (x & <- & Hx). exists x. split; [exact Hx|reflexivity].
Qed.

(** Text after the last slash. *)
Lemma last_slash : forall a b n n', ~ In "/"%char n -> ~ In "/"%char n' ->
  a ++ "/"%char :: n = b ++ "/"%char :: n' -> a = b /\ n = n'.
Proof.
  induction a as [|c a IH]; intros b n n' Hn Hn' E.
  - destruct b as [|d b]; cbn in E; injection E as E1; [subst; auto|].
    exfalso. apply Hn. rewrite H. apply in_or_app. right. left. reflexivity.
  - destruct b as [|d b]; cbn in E; injection E as E1 E2.
    + exfalso. apply Hn'. rewrite <- E2. apply in_or_app. right. left. reflexivity.
    + destruct (IH b n n' Hn Hn' E2) as [-> ->]. subst. auto.
Qed.

Lemma upd_same : forall {A} (f : str -> A) k v, upd f k v k = v.
Proof. intros. unfold upd. destruct (str_eq_dec k k); congruence. Qed.
Lemma upd_other : forall {A} (f : str -> A) k v k', k' <> k -> upd f k v k' = f k'.
Proof. intros. unfold upd. destruct (str_eq_dec k' k); congruence. Qed.

Section Inv.
  Context {B : Type}.
  Variable zero : B.
  Variable storage : str.
  Variable max_item : nat.
  Variable mounts : list str.
  Variable content : str -> list B.
  Hypothesis HM : good_mounts storage mounts.
  Local Notation path := (path_of storage).
  Local Notation exist := (exist storage).
  Local Notation find_path := (find_path storage).
  Local Notation find_mount := (find_mount storage).

  Lemma path_inj : forall m n m' n', good_name n -> good_name n' -> path m n = path m' n' -> m = m' /\ n = n'.
  Proof.
    destruct HM as ((d & Hs) & _ & _). intros m n m' n' [Hn _] [Hn' _] E. unfold path_of in E. rewrite Hs in E.
    rewrite <- !app_assoc in E. cbn [app] in E.
    rewrite (app_assoc m), (app_assoc m') in E.
    destruct (last_slash _ _ _ _ Hn Hn' E) as [E1 E2]. split; [|exact E2].
    apply app_inv_tail in E1. exact E1.
  Qed.

  Lemma path_nonempty : forall m n, path m n <> [].
  Proof.
    destruct HM as ((d & Hs) & _ & _). intros m n E. unfold path_of in E. rewrite Hs in E.
    apply app_eq_nil in E as [_ E]. apply app_eq_nil in E as [E _]. apply app_eq_nil in E as [_ E]. discriminate.
  Qed.

  Lemma path_decode : forall m n, In m mounts -> good_name n -> decode_path (encode_path (path m n)) = path m n.
  Proof. intros m n Hm Hn. apply decode_encode. apply (proj1 (proj2 HM)); assumption. Qed.

  Lemma key_neq : forall n r, good_name n -> n <> locate_prefix ++ r.
  Proof. intros n r (_ & _ & H). apply H. Qed.

  (** [p] is the place of [n] on a mount point. *)
  Definition place (n p : str) : Prop := exists m, In m mounts /\ p = path m n.

  Definition good_effect (e : effect B) : Prop :=
    match e with
    | EPut n p => good_name n /\ place n p
    | ERemove n p => good_name n /\ (p = [] \/ place n p)
    | EMark _ | EUnmark _ => True
    | ECache n b => good_name n /\ b = content n
    end.

  Record inv (s : store B) : Prop := {
    i_fs : forall p f, fs s p = Some f ->
      exists n, good_name n /\ place n p /\ firstn (length (content n)) f = content n;
    i_idx : forall n x, good_name n -> In x (raw (idx s n)) -> x = [] \/ exists p, place n p /\ x = encode_path p;
    i_cch : forall n b, good_name n -> cch s n = Some b -> b = content n;
    i_tasks : forall t e, In t (tasks s) -> In e t -> good_effect e;
    i_drv : incl (drv s) mounts }.

  Lemma fs_name : forall s p n f, inv s -> good_name n -> place n p -> fs s p = Some f ->
    firstn (length (content n)) f = content n.
  Proof.
    intros s p n f I Hn (m & Hm & ->) Hf. destruct (i_fs s I _ _ Hf) as (n' & Hn' & (m' & Hm' & E) & H).
    apply path_inj in E as [_ ->]; assumption.
  Qed.

  Lemma fs_empty : forall s, inv s -> fs s [] = None.
  Proof.
    intros s I. destruct (fs s []) as [f|] eqn:E; [|reflexivity].
    destruct (i_fs s I _ _ E) as (n & _ & (m & _ & X) & _). symmetry in X. exfalso. exact (path_nonempty _ _ X).
  Qed.

  Lemma inv_spawn : forall s t, inv s -> (forall e, In e t -> good_effect e) -> inv (spawn s t).
  Proof.
    intros s t I H. destruct I. constructor; cbn; try assumption.
    intros t' e Ht He. apply in_app_or in Ht as [Ht|[<-|[]]]; eauto.
  Qed.

  Lemma inv_idx : forall s n v, inv s ->
    (good_name n -> forall x, In x (raw v) -> x = [] \/ exists p, place n p /\ x = encode_path p) ->
    inv (with_idx s (upd (idx s) n v)).
  Proof.
    intros s n v I H. destruct I. constructor; cbn; try assumption.
    intros n' x Hn' Hx. unfold upd in Hx. destruct (str_eq_dec n' n) as [->|]; eauto.
  Qed.

  Lemma inv_cch : forall s k v, inv s ->
    (forall n b, good_name n -> k = n -> v = Some b -> b = content n) ->
    inv (with_cch s (upd (cch s) k v)).
  Proof.
    intros s k v I H. destruct I. constructor; cbn; try assumption.
    intros n b Hn Hb. unfold upd in Hb. destruct (str_eq_dec n k) as [->|]; eauto.
  Qed.

  Lemma inv_fs : forall s p v, inv s ->
    (forall f, v = Some f -> exists n, good_name n /\ place n p /\ firstn (length (content n)) f = content n) ->
    inv (with_fs s (upd (fs s) p v)).
  Proof.
    intros s p v I H. destruct I. constructor; cbn; try assumption.
    intros p' f Hf. unfold upd in Hf. destruct (str_eq_dec p' p) as [->|]; eauto.
  Qed.

  Lemma inv_effect : forall s e, inv s -> good_effect e -> inv (do_effect s e).
  Proof.
    intros s [n p|n p|n|n|n b] I He; cbn [do_effect good_effect] in *.
    - apply inv_idx; [exact I|]. intros Hn x Hx. apply raw_put in Hx as [->|Hx].
      + right. exists p. split; [apply He|reflexivity].
      + exact (i_idx s I n x Hn Hx).
    - destruct He as [Hn He]. apply inv_idx; [exact I|]. intros _ x Hx.
      assert (Q : x = [] \/ In x (raw (idx s n))).
      { destruct He as [->|(m & Hm & ->)]; [exact (raw_remove_nil _ _ Hx)|].
        apply (raw_remove _ _ (path_nonempty m n)) in Hx; [exact Hx|].
        intros y Hy Hin. destruct (i_idx s I n y Hn Hy) as [->|(p & (m' & Hm' & ->) & ->)].
        - exfalso. destruct Hin as (a & b & E). symmetry in E. apply app_eq_nil in E as [_ E].
          apply app_eq_nil in E as [E _]. exact (encode_nonempty _ (path_nonempty m n) E).
        - rewrite (proj2 (proj2 HM) m m' n Hm Hm' Hn Hin). reflexivity. }
      destruct Q as [->|Q]; [left; reflexivity|exact (i_idx s I n x Hn Q)].
    - apply inv_cch; [exact I|]. intros n' b Hn' E _. exfalso. exact (key_neq n' n Hn' (eq_sym E)).
    - apply inv_cch; [exact I|]. intros n' b' _ _ X. discriminate.
    - apply inv_cch; [exact I|]. intros n' b' Hn' <- X. injection X as <-. apply He.
  Qed.

  Lemma inv_run_task : forall s i, inv s -> inv (run_task s i).
  Proof.
    intros s i I. unfold run_task. destruct (nth_error (tasks s) i) as [[|e r]|] eqn:E; try exact I.
    pose proof (nth_error_In _ _ E) as Hin.
    apply inv_effect.
    - destruct I. constructor; cbn; try assumption. intros t e' Ht He.
      apply in_app_or in Ht as [Ht|[<-|Ht]].
      + apply (i_tasks0 t e'); [|exact He]. rewrite <- (firstn_skipn i (tasks s)). apply in_or_app. left. exact Ht.
      + apply (i_tasks0 (e :: r) e' Hin). right. exact He.
      + apply (i_tasks0 t e'); [|exact He]. rewrite <- (firstn_skipn (S i) (tasks s)). apply in_or_app. right. exact Ht.
    - apply (i_tasks s I (e :: r) e Hin). left. reflexivity.
  Qed.

  Lemma find_mount_some : forall (s : store B) mps n p, incl mps mounts -> find_mount s mps n = Some p ->
    place n p /\ fs s p <> None.
  Proof.
    induction mps as [|m mps IH]; intros n p Hi H; cbn in H; [discriminate|].
    destruct (fs s (path m n)) as [f|] eqn:E.
    - injection H as <-. split; [exists m; split; [apply Hi; left; reflexivity|reflexivity]|congruence].
    - apply IH; [|exact H]. intros x Hx. apply Hi. right. exact Hx.
  Qed.

  Lemma last_place : forall s n p, inv s -> good_name n -> path_last (idx s n) = Some p -> p = [] \/ place n p.
  Proof.
    intros s n p I Hn H. apply raw_last in H as (x & Hx & ->).
    destruct (i_idx s I n x Hn Hx) as [->|(p & (m & Hm & ->) & ->)]; [left; reflexivity|right].
    exists m. split; [exact Hm|]. apply path_decode; assumption.
  Qed.

  Lemma find_path_inv : forall s n r s', inv s -> good_name n -> find_path s n = (r, s') ->
    inv s' /\ fs s' = fs s /\ idx s' = idx s /\ cch s' = cch s /\ drv s' = drv s /\
    (forall p, r = Some p -> p = [] \/ place n p).
  Proof.
    intros s n r s' I Hn H. unfold Store_Model.find_path in H. destruct (path_last (idx s n)) as [p|] eqn:E.
    - injection H as <- <-. split; [exact I|]. do 4 (split; [reflexivity|]).
      intros q X. injection X as <-. exact (last_place s n p I Hn E).
    - destruct (find_mount s (drv s) n) as [p|] eqn:F; injection H as <- <-.
      + destruct (find_mount_some _ _ _ _ (i_drv s I) F) as [P _]. split.
        * apply (inv_spawn s [EPut n p] I). intros e [<-|[]]. split; assumption.
        * do 4 (split; [reflexivity|]). intros q X. injection X as <-. right. exact P.
      + split; [exact I|]. do 4 (split; [reflexivity|]). discriminate.
  Qed.

  Lemma exist_inv : forall s n r s', inv s -> good_name n -> exist s n = (r, s') ->
    inv s' /\ fs s' = fs s /\ drv s' = drv s.
  Proof.
    intros s n r s' I Hn H. unfold Store_Model.exist in H.
    destruct (cch s (locate_prefix ++ n)); [injection H as <- <-; auto|].
    destruct (cch s n); [injection H as <- <-; auto|].
    destruct (find_path s n) as [[p|] s1] eqn:F.
    - destruct (find_path_inv _ _ _ _ I Hn F) as (I1 & E1 & _ & _ & E2 & P).
      destruct (fs s1 p); injection H as <- <-.
      + split; [exact (inv_effect s1 (EMark n) I1 Logic.I)|]. cbn. auto.
      + split; [apply (inv_spawn s1 [ERemove n p] I1)|cbn; auto].
        intros e [<-|[]]. split; [exact Hn|]. apply P. reflexivity.
    - injection H as <- <-. destruct (find_path_inv _ _ _ _ I Hn F) as (I1 & E1 & _ & _ & E2 & _). auto.
  Qed.

  Lemma inv_cache_body : forall s n size bt, inv s -> good_name n -> (size <= max_item -> bt <> [] -> bt = content n) ->
    inv (cache_body max_item s n size bt).
  Proof.
    intros s n size bt I Hn H. unfold cache_body. destruct (size <=? max_item) eqn:E; [|exact I].
    apply Nat.leb_le in E. destruct bt as [|b bt]; [exact I|].
    apply inv_spawn; [exact I|]. intros e [<-|[]]. split; [exact Hn|]. apply H; [exact E|discriminate].
  Qed.

  Lemma append_ok : forall old data fails f e,
    append_aligned zero old (2 * block) {| src_bytes := data; src_fails := fails |} = Some (f, e) ->
    e = fails /\ exists z, f = old ++ data ++ z.
  Proof.
    intros old data fails f e H. unfold append_aligned in H.
    destruct (padded_write B zero (2 * block) data fails) as (pad & _ & E & _); [pose proof block_pos; lia|].
    rewrite E in H. injection H as <- <-. split; [reflexivity|]. exists (repeat zero pad). reflexivity.
  Qed.

  Lemma firstn_keep : forall (c f z : list B), firstn (length c) f = c -> firstn (length c) (f ++ z) = c.
  Proof.
    intros c f z H. rewrite firstn_app. rewrite H.
    assert (length c <= length f) by (rewrite <- H at 1; apply firstn_le_length || (rewrite firstn_length; lia)).
    replace (length c - length f) with 0 by lia. rewrite firstn_O, app_nil_r. reflexivity.
  Qed.

  Lemma firstn_own : forall (c z : list B), firstn (length c) (c ++ z) = c.
  Proof. intros c z. rewrite firstn_app, firstn_all, Nat.sub_diag, firstn_O, app_nil_r. reflexivity. Qed.

  Lemma write_file_inv : forall s m n fails s' ok, inv s -> good_name n -> In m mounts ->
    fails = false -> write_file zero s (path m n) (content n) fails = (s', ok) ->
    inv s' /\ drv s' = drv s /\ (ok = true -> fs s' (path m n) <> None) /\
    (forall p, fs s p <> None -> fs s' p <> None) /\ idx s' = idx s /\ cch s' = cch s /\ tasks s' = tasks s.
  Proof.
    intros s m n fails s' ok I Hn Hm -> H. unfold write_file in H.
    destruct (append_aligned _ _ _ _) as [[f e]|] eqn:A.
    - injection H as <- <-. apply append_ok in A as [_ (z & ->)]. split; [|cbn; repeat split].
      + apply inv_fs; [exact I|]. intros f E. injection E as <-. exists n. split; [exact Hn|].
        split; [exists m; auto|]. destruct (fs s (path m n)) as [f|] eqn:F.
        * apply firstn_keep. apply (fs_name s (path m n) n f I Hn); [exists m; auto|exact F].
        * cbn [app]. apply firstn_own.
      + intros _. rewrite upd_same. discriminate.
      + intros p Hp. unfold upd. destruct (str_eq_dec p (path m n)); [discriminate|exact Hp].
    - injection H as <- <-. split; [exact I|]. split; [reflexivity|]. split; [discriminate|]. auto.
  Qed.

  Lemma put_inv : forall s m n, inv s -> good_name n -> In m mounts ->
    inv (snd (put zero storage max_item s n m (content n) false)).
  Proof.
    intros s m n I Hn Hm. unfold put. destruct (content n) as [|c0 c] eqn:C; [exact I|]. rewrite <- C.
    destruct (exist s n) as [[|] s1] eqn:E1; destruct (exist_inv _ _ _ _ I Hn E1) as (I1 & _ & _); [exact I1|].
    destruct (exist s1 n) as [[|] s2] eqn:E2; destruct (exist_inv _ _ _ _ I1 Hn E2) as (I2 & _ & _).
    - apply inv_cache_body; [exact I2|exact Hn|]. intros _ X. congruence.
    - destruct (write_file zero s2 (path m n) (content n) false) as [s3 [|]] eqn:W;
        destruct (write_file_inv _ _ _ _ _ _ I2 Hn Hm eq_refl W) as (I3 & _); [|exact I3].
      apply inv_cache_body; [|exact Hn|auto].
      apply inv_spawn; [exact I3|]. intros e [<-|[<-|[]]]; [|exact Logic.I].
      split; [exact Hn|exists m; auto].
  Qed.

  (** The answer of a read of the whole object. *)
  Lemma get_inv : forall s n off size, inv s -> good_name n ->
    ((off = 0 /\ size = length (content n)) \/ max_item < size) ->
    inv (snd (get storage max_item s n off size)) /\
    (off = 0 -> size = length (content n) ->
     forall b, fst (get storage max_item s n off size) = RBytes b -> b = content n).
  Proof.
    intros s n off size I Hn Hsz. unfold get. destruct (cch s n) as [b|] eqn:C.
    - cbn. split; [exact I|]. intros _ _ b' X. injection X as <-. exact (i_cch s I n b Hn C).
    - destruct (exist s n) as [[|] s1] eqn:E1; destruct (exist_inv _ _ _ _ I Hn E1) as (I1 & _ & _).
      2:{ cbn. split; [exact I1|discriminate]. }
      destruct (find_path s1 n) as [[p|] s2] eqn:F; destruct (find_path_inv _ _ _ _ I1 Hn F) as (I2 & _ & _ & _ & _ & P).
      2:{ cbn. split; [exact I2|discriminate]. }
      unfold get_file. destruct (fs s2 p) as [f|] eqn:Ff.
      2:{ cbn. split; [exact I2|discriminate]. }
      assert (Hp : place n p).
      { destruct (P p eq_refl) as [->|X]; [|exact X]. rewrite (fs_empty s2 I2) in Ff. discriminate. }
      pose proof (fs_name s2 p n f I2 Hn Hp Ff) as Hf.
      cbn [fst snd]. split.
      + apply inv_cache_body; [apply inv_effect; [exact I2|exact Logic.I]|exact Hn|].
        intros Hle _. destruct Hsz as [[-> ->]|Hsz]; [|lia]. exact Hf.
      + intros -> -> b X. injection X as <-. exact Hf.
  Qed.

  Lemma delete_inv : forall s n, inv s -> good_name n -> inv (snd (delete storage s n)).
  Proof.
    intros s n I Hn. unfold delete.
    assert (I0 : inv (with_cch s (upd (cch s) n None))) by (apply inv_cch; [exact I|discriminate]).
    destruct (exist _ n) as [[|] s1] eqn:E1; destruct (exist_inv _ _ _ _ I0 Hn E1) as (I1 & _ & _); [|exact I1].
    destruct (find_path s1 n) as [[p|] s2] eqn:F; destruct (find_path_inv _ _ _ _ I1 Hn F) as (I2 & _ & _ & _ & _ & P);
      cbn [snd]; (apply inv_spawn; [|intros e [<-|[<-|[]]]; [split; [exact Hn|]|exact Logic.I]]).
    - apply inv_fs; [exact I2|discriminate].
    - apply P. reflexivity.
    - exact I2.
    - left. reflexivity.
  Qed.

  Lemma commit_inv : forall s m n f z, inv s -> good_name n -> In m mounts -> f = content n ++ z ->
    inv (snd (commit storage s m n f)).
  Proof.
    intros s m n f z I Hn Hm ->. unfold commit. destruct (fs s (path m n)); [exact I|]. cbn [snd].
    apply inv_spawn.
    - apply inv_fs; [exact I|]. intros f E. injection E as <-. exists n. split; [exact Hn|].
      split; [exists m; auto|apply firstn_own].
    - intros e [<-|[<-|[]]]; [|exact Logic.I]. split; [exact Hn|exists m; auto].
  Qed.

  Lemma step_inv : forall s o, inv s -> safe max_item mounts content o -> inv (snd (step zero storage max_item s o)).
  Proof.
    intros s o I H. destruct o; cbn [safe step] in *; try contradiction.
    - destruct H as (Hn & Hm & ->). apply put_inv; assumption.
    - destruct H as (Hn & H). apply get_inv; assumption.
    - unfold head. destruct (exist s name) as [[|] s1] eqn:E; destruct (exist_inv _ _ _ _ I H E) as (I1 & _); exact I1.
    - apply delete_inv; assumption.
    - destruct H as (Hn & Hm & z & E). exact (commit_inv s mp name file z I Hn Hm E).
    - apply inv_run_task, I.
    - apply inv_cch; [exact I|discriminate].
    - destruct I. constructor; cbn; assumption.
    - destruct I. constructor; cbn; try assumption; [discriminate|tauto].
  Qed.

  Lemma run_inv : forall ops s, inv s -> Forall (safe max_item mounts content) ops ->
    inv (run zero storage max_item s ops).
  Proof.
    unfold run. induction ops as [|o ops IH]; intros s I H; [exact I|].
    inversion H; subst. cbn [fold_left]. apply IH; [|assumption]. apply step_inv; assumption.
  Qed.

  Lemma empty_inv : forall drivers, incl drivers mounts -> inv (empty_store drivers).
  Proof. intros d H. constructor; cbn; try tauto; try discriminate; assumption. Qed.

  (** Whatever whole object is read, its bytes are right. *)
  Lemma reads_right : forall drivers ops n b, incl drivers mounts ->
    Forall (safe max_item mounts content) ops -> good_name n ->
    answer zero storage max_item (empty_store drivers) ops (Get n 0 (length (content n))) = RBytes b ->
    b = content n.
  Proof.
    intros d ops n b Hd Ho Hn H. unfold answer in H. cbn [step] in H.
    refine (proj2 (get_inv _ n 0 (length (content n)) (run_inv ops _ (empty_inv d Hd) Ho) Hn _) eq_refl eq_refl b H).
    left. auto.
  Qed.

  (** ** Staying readable *)
  Variable n0 m0 : str.
  Hypothesis Hn0 : good_name n0.
  Hypothesis Hm0 : In m0 mounts.

  Definition live_effect (s : store B) (e : effect B) : Prop :=
    match e with
    | EPut n p => n = n0 -> fs s p <> None
    | ERemove n _ => n <> n0
    | _ => True
    end.

  Record live (s : store B) : Prop := {
    l_inv : inv s;
    l_drv : In m0 (drv s);
    l_file : fs s (path m0 n0) <> None;
    l_idx : forall x, In x (raw (idx s n0)) -> fs s (decode_path x) <> None;
    l_tasks : forall t e, In t (tasks s) -> In e t -> live_effect s e }.

  Lemma live_spawn : forall s t, live s -> (forall e, In e t -> good_effect e /\ live_effect s e) -> live (spawn s t).
  Proof.
    intros s t L H. destruct L. constructor; cbn; try assumption.
    - apply inv_spawn; [assumption|]. intros e He. apply H, He.
    - intros t' e Ht He. apply in_app_or in Ht as [Ht|[<-|[]]].
      + exact (l_tasks0 t' e Ht He).
      + exact (proj2 (H e He)).
  Qed.

  Lemma live_grow : forall s f, live s -> inv (with_fs s f) -> (forall p, fs s p <> None -> f p <> None) -> live (with_fs s f).
  Proof.
    intros s f L I H. destruct L. constructor; cbn; auto.
    intros t e Ht He. specialize (l_tasks0 t e Ht He). destruct e; cbn in *; auto.
  Qed.

  Lemma live_effect_step : forall s e, live s -> good_effect e -> live_effect s e -> live (do_effect s e).
  Proof.
    intros s e L G H. pose proof (inv_effect s e (l_inv s L) G) as I. destruct L.
    destruct e as [n p|n p|n|n|n b]; cbn [do_effect] in *; constructor; cbn; try assumption.
    - intros x Hx. unfold upd in Hx. destruct (str_eq_dec n0 n) as [Heq|Hne]; [|auto].
      apply raw_put in Hx as [->|Hx]; [|rewrite <- Heq in Hx; auto]. destruct G as [Gn (m & Hm & Ep)].
      rewrite Ep in *. rewrite path_decode by assumption. apply H. symmetry. exact Heq.
    - intros x Hx. unfold upd in Hx. cbn in H. destruct (str_eq_dec n0 n) as [Heq|Hne]; [congruence|auto].
  Qed.

  Lemma live_run_task : forall s i, live s -> live (run_task s i).
  Proof.
    intros s i L. unfold run_task. destruct (nth_error (tasks s) i) as [[|e r]|] eqn:E; try exact L.
    pose proof (nth_error_In _ _ E) as Hin. pose proof (l_inv s L) as I.
    assert (Hsub : forall t e', In t (firstn i (tasks s) ++ r :: skipn (S i) (tasks s)) -> In e' t ->
              exists t', In t' (tasks s) /\ In e' t').
    { intros t e' Ht He. apply in_app_or in Ht as [Ht|[<-|Ht]].
      - exists t. split; [|exact He]. rewrite <- (firstn_skipn i (tasks s)). apply in_or_app. left. exact Ht.
      - exists (e :: r). split; [exact Hin|right; exact He].
      - exists t. split; [|exact He]. rewrite <- (firstn_skipn (S i) (tasks s)). apply in_or_app. right. exact Ht. }
    apply live_effect_step.
    - destruct L. constructor; cbn; try assumption.
      + destruct I. constructor; cbn; try assumption.
        intros t e' Ht He. destruct (Hsub t e' Ht He) as (t' & H1 & H2). eauto.
      + intros t e' Ht He. destruct (Hsub t e' Ht He) as (t' & H1 & H2).
        specialize (l_tasks0 t' e' H1 H2). destruct e'; exact l_tasks0.
    - exact (i_tasks s I (e :: r) e Hin (or_introl eq_refl)).
    - pose proof (l_tasks s L (e :: r) e Hin (or_introl eq_refl)) as X. destruct e; exact X.
  Qed.

  Lemma find_mount_hit : forall (s : store B) mps m n, In m mps -> fs s (path m n) <> None -> find_mount s mps n <> None.
  Proof.
    induction mps as [|x mps IH]; intros m n Hm H; [destruct Hm|]. cbn.
    destruct (fs s (path x n)) eqn:E; [discriminate|].
    destruct Hm as [->|Hm]; [congruence|]. exact (IH m n Hm H).
  Qed.

  Lemma find_path_live : forall s n r s', live s -> good_name n -> find_path s n = (r, s') ->
    live s' /\ (n = n0 -> exists p, r = Some p /\ fs s' p <> None).
  Proof.
    intros s n r s' L Hn H. pose proof (l_inv s L) as I. unfold Store_Model.find_path in H.
    destruct (path_last (idx s n)) as [p|] eqn:E.
    - injection H as <- <-. split; [exact L|]. intros ->. exists p. split; [reflexivity|].
      apply raw_last in E as (x & Hx & ->). exact (l_idx s L x Hx).
    - destruct (find_mount s (drv s) n) as [p|] eqn:F; injection H as <- <-.
      + destruct (find_mount_some _ _ _ _ (i_drv s I) F) as [P Q]. split.
        * apply (live_spawn s [EPut n p] L). intros e [<-|[]]. split; [split; assumption|].
          intros _. exact Q.
        * intros ->. exists p. split; [reflexivity|]. exact Q.
      + split; [exact L|]. intros ->. exfalso. exact (find_mount_hit s (drv s) m0 n0 (l_drv s L) (l_file s L) F).
  Qed.

  Lemma exist_live : forall s n r s', live s -> good_name n -> exist s n = (r, s') ->
    live s' /\ (n = n0 -> r = true).
  Proof.
    intros s n r s' L Hn H. unfold Store_Model.exist in H.
    destruct (cch s (locate_prefix ++ n)); [injection H as <- <-; auto|].
    destruct (cch s n); [injection H as <- <-; auto|].
    destruct (find_path s n) as [[p|] s1] eqn:F.
    - destruct (find_path_live _ _ _ _ L Hn F) as (L1 & X).
      destruct (find_path_inv _ _ _ _ (l_inv s L) Hn F) as (_ & _ & _ & _ & _ & P).
      destruct (fs s1 p) eqn:Ep; injection H as <- <-.
      + split; [exact (live_effect_step s1 (EMark n) L1 Logic.I Logic.I)|auto].
      + assert (Hne : n <> n0). { intros Hc. destruct (X Hc) as (q & Y & Z). injection Y as <-. congruence. }
        split; [|congruence]. apply (live_spawn s1 [ERemove n p] L1).
        intros e [<-|[]]. split; [split; [exact Hn|apply P; reflexivity]|exact Hne].
    - injection H as <- <-. destruct (find_path_live _ _ _ _ L Hn F) as (L1 & X). split; [exact L1|].
      intros Hc. destruct (X Hc) as (q & Y & _). discriminate.
  Qed.

  Lemma live_cache_body : forall s n size bt, live s -> good_name n -> (size <= max_item -> bt <> [] -> bt = content n) ->
    live (cache_body max_item s n size bt).
  Proof.
    intros s n size bt L Hn H. unfold cache_body. destruct (size <=? max_item) eqn:E; [|exact L].
    apply Nat.leb_le in E. destruct bt as [|b bt]; [exact L|].
    apply live_spawn; [exact L|]. intros e [<-|[]]. split; [|exact Logic.I].
    split; [exact Hn|]. apply H; [exact E|discriminate].
  Qed.

  Lemma write_file_live : forall s m n s' ok, live s -> good_name n -> In m mounts ->
    write_file zero s (path m n) (content n) false = (s', ok) ->
    live s' /\ (ok = true -> fs s' (path m n) <> None).
  Proof.
    intros s m n s' ok L Hn Hm H.
    destruct (write_file_inv _ _ _ _ _ _ (l_inv s L) Hn Hm eq_refl H) as (I' & _ & Hok & Hg & _).
    split; [|exact Hok]. unfold write_file in H.
    destruct (append_aligned _ _ _ _) as [[f e]|]; injection H as <- <-; [|exact L].
    apply live_grow; assumption.
  Qed.

  Lemma put_live : forall s m n, live s -> good_name n -> In m mounts ->
    live (snd (put zero storage max_item s n m (content n) false)).
  Proof.
    intros s m n L Hn Hm. unfold put. destruct (content n) as [|c0 c] eqn:C; [exact L|]. rewrite <- C.
    destruct (exist s n) as [[|] s1] eqn:E1; destruct (exist_live _ _ _ _ L Hn E1) as (L1 & _); [exact L1|].
    destruct (exist s1 n) as [[|] s2] eqn:E2; destruct (exist_live _ _ _ _ L1 Hn E2) as (L2 & _).
    - apply live_cache_body; [exact L2|exact Hn|]. intros _ X. congruence.
    - destruct (write_file zero s2 (path m n) (content n) false) as [s3 [|]] eqn:W;
        destruct (write_file_live _ _ _ _ _ L2 Hn Hm W) as (L3 & Hok); [|exact L3].
      apply live_cache_body; [|exact Hn|auto].
      apply live_spawn; [exact L3|]. intros e [<-|[<-|[]]]; [|split; exact Logic.I].
      split; [split; [exact Hn|exists m; auto]|]. intros _. apply Hok. reflexivity.
  Qed.

  Lemma get_live : forall s n off size, live s -> good_name n ->
    ((off = 0 /\ size = length (content n)) \/ max_item < size) ->
    live (snd (get storage max_item s n off size)).
  Proof.
    intros s n off size L Hn Hsz. unfold get. destruct (cch s n) as [b|] eqn:C; [exact L|].
    destruct (exist s n) as [[|] s1] eqn:E1; destruct (exist_live _ _ _ _ L Hn E1) as (L1 & _); [|exact L1].
    destruct (find_path s1 n) as [[p|] s2] eqn:F; destruct (find_path_live _ _ _ _ L1 Hn F) as (L2 & _); [|exact L2].
    destruct (find_path_inv _ _ _ _ (l_inv s1 L1) Hn F) as (I2 & _ & _ & _ & _ & P).
    unfold get_file. destruct (fs s2 p) as [f|] eqn:Ff; [|exact L2].
    assert (Hp : place n p).
    { destruct (P p eq_refl) as [->|X]; [|exact X]. rewrite (fs_empty s2 I2) in Ff. discriminate. }
    pose proof (fs_name s2 p n f I2 Hn Hp Ff) as Hf.
    cbn [snd]. apply live_cache_body; [exact (live_effect_step s2 (EMark n) L2 Logic.I Logic.I)|exact Hn|].
    intros Hle _. destruct Hsz as [[-> ->]|Hsz]; [|lia]. exact Hf.
  Qed.

  Lemma live_remove : forall s n p, live s -> good_name n -> n <> n0 -> p = [] \/ place n p ->
    live (with_fs s (upd (fs s) p None)).
  Proof.
    intros s n p L Hn Hne Hp. pose proof (l_inv s L) as I.
    assert (Q : forall q, place n0 q -> fs s q <> None -> upd (fs s) p None q <> None).
    { intros q (m & Hm & ->) Hq. rewrite upd_other; [exact Hq|]. intros E.
      destruct Hp as [->|(m' & Hm' & ->)]; [exact (path_nonempty _ _ E)|].
      apply path_inj in E as [_ X]; [congruence|assumption|assumption]. }
    destruct L. constructor; cbn; try assumption.
    - apply inv_fs; [exact I|discriminate].
    - apply Q; [exists m0; auto|assumption].
    - intros x Hx. apply Q; [|auto]. destruct (i_idx s I n0 x Hn0 Hx) as [->|(q & (m & Hm & ->) & ->)].
      + exfalso. apply (l_idx0 [] Hx). exact (fs_empty s I).
      + exists m. split; [exact Hm|]. apply path_decode; assumption.
    - intros t e Ht He. pose proof (l_tasks0 t e Ht He) as X. pose proof (i_tasks s I t e Ht He) as G.
      destruct e as [n' p'| | | |]; cbn in *; try exact X. intros ->. apply Q; [apply G|auto].
  Qed.

  Lemma live_evict : forall s k, live s -> live (with_cch s (upd (cch s) k None)).
  Proof.
    intros s k L. pose proof (l_inv s L) as I. destruct L. constructor; cbn; try assumption.
    apply inv_cch; [exact I|discriminate].
  Qed.

  Lemma delete_live : forall s n, live s -> good_name n -> n <> n0 -> live (snd (delete storage s n)).
  Proof.
    intros s n L Hn Hne. unfold delete. pose proof (live_evict s n L) as L0.
    destruct (exist _ n) as [[|] s1] eqn:E1; destruct (exist_live _ _ _ _ L0 Hn E1) as (L1 & _); [|exact L1].
    destruct (find_path s1 n) as [[p|] s2] eqn:F; destruct (find_path_live _ _ _ _ L1 Hn F) as (L2 & _);
      destruct (find_path_inv _ _ _ _ (l_inv s1 L1) Hn F) as (_ & _ & _ & _ & _ & P); cbn [snd].
    - apply live_spawn; [apply (live_remove s2 n p L2 Hn Hne); apply P; reflexivity|].
      intros e [<-|[<-|[]]]; [|split; exact Logic.I]. split; [split; [exact Hn|apply P; reflexivity]|exact Hne].
    - apply live_spawn; [exact L2|]. intros e [<-|[<-|[]]]; [|split; exact Logic.I].
      split; [split; [exact Hn|left; reflexivity]|exact Hne].
  Qed.

  Lemma step_live : forall s o, live s -> safe max_item mounts content o -> keeps n0 m0 o ->
    live (snd (step zero storage max_item s o)).
  Proof.
    intros s o L H K. destruct o; cbn [safe step keeps] in *; try contradiction.
    - destruct H as (Hn & Hm & ->). apply put_live; assumption.
    - destruct H as (Hn & H). apply get_live; assumption.
    - unfold head. destruct (exist s name) as [[|] s1] eqn:E; destruct (exist_live _ _ _ _ L H E) as (L1 & _); exact L1.
    - apply delete_live; assumption.
    - destruct H as (Hn & Hm & z & ->). unfold commit. destruct (fs s (path mp name)) eqn:F; [exact L|]. cbn [snd].
      apply live_spawn.
      + apply live_grow; [exact L| |].
        * apply inv_fs; [exact (l_inv s L)|]. intros f E. injection E as <-. exists name. split; [exact Hn|].
          split; [exists mp; auto|apply firstn_own].
        * intros p Hp. unfold upd. destruct (str_eq_dec p (path mp name)); [discriminate|exact Hp].
      + intros e [<-|[<-|[]]]; [|split; exact Logic.I]. split; [split; [exact Hn|exists mp; auto]|].
        intros _. cbn. rewrite upd_same. discriminate.
    - apply live_run_task, L.
    - apply live_evict, L.
    - pose proof (l_inv s L) as I. destruct L. constructor; cbn; try assumption. destruct I. constructor; cbn; assumption.
    - pose proof (l_inv s L) as I. destruct L. constructor; cbn; try assumption; [|tauto].
      destruct I. constructor; cbn; try assumption; [discriminate|tauto].
  Qed.

  Lemma run_live : forall ops s, live s -> Forall (safe max_item mounts content) ops -> Forall (keeps n0 m0) ops ->
    live (run zero storage max_item s ops).
  Proof.
    unfold run. induction ops as [|o ops IH]; intros s L H K; [exact L|].
    inversion H; inversion K; subst. cbn [fold_left]. apply IH; try assumption. apply step_live; assumption.
  Qed.

  Lemma live_get : forall s, live s ->
    fst (get storage max_item s n0 0 (length (content n0))) = RBytes (content n0).
  Proof.
    intros s L. pose proof (l_inv s L) as I.
    assert (R : exists b, fst (get storage max_item s n0 0 (length (content n0))) = RBytes b).
    { unfold get. destruct (cch s n0) as [b|] eqn:C; [exists b; reflexivity|].
      destruct (exist s n0) as [r s1] eqn:E1. destruct (exist_live _ _ _ _ L Hn0 E1) as (L1 & ->); [|reflexivity].
      destruct (find_path s1 n0) as [r2 s2] eqn:F. destruct (find_path_live _ _ _ _ L1 Hn0 F) as (L2 & X).
      destruct (X eq_refl) as (p & -> & Hp). unfold get_file. destruct (fs s2 p) as [f|]; [|congruence].
      eexists. reflexivity. }
    destruct R as [b E]. rewrite E. f_equal.
    refine (proj2 (get_inv s n0 0 (length (content n0)) I Hn0 _) eq_refl eq_refl b E). left. auto.
  Qed.

  (** ** A name never used *)
  Definition eff_name (e : effect B) : str :=
    match e with EPut n _ | ERemove n _ | EMark n | EUnmark n | ECache n _ => n end.

  Record fresh (s : store B) : Prop := {
    f_inv : inv s;
    f_fs : forall m, fs s (path m n0) = None;
    f_idx : idx s n0 = None;
    f_cch : cch s n0 = None;
    f_mark : cch s (locate_prefix ++ n0) = None;
    f_tasks : forall t e, In t (tasks s) -> In e t -> eff_name e <> n0 }.

  Lemma fresh_spawn : forall s t, fresh s -> (forall e, In e t -> good_effect e /\ eff_name e <> n0) -> fresh (spawn s t).
  Proof.
    intros s t L H. destruct L. constructor; cbn; try assumption.
    - apply inv_spawn; [assumption|]. intros e He. apply H, He.
    - intros t' e Ht He. apply in_app_or in Ht as [Ht|[<-|[]]]; [eauto|]. apply H, He.
  Qed.

  Lemma mark_neq : forall n, n <> n0 -> locate_prefix ++ n0 <> locate_prefix ++ n.
  Proof. intros n H E. apply app_inv_head in E. congruence. Qed.

  Lemma fresh_effect : forall s e, fresh s -> good_effect e -> eff_name e <> n0 -> fresh (do_effect s e).
  Proof.
    intros s e L G H. pose proof (inv_effect s e (f_inv s L) G) as I. destruct L.
    destruct e as [n p|n p|n|n|n b]; cbn [do_effect eff_name] in *; constructor; cbn -[locate_prefix app]; try assumption;
      try (rewrite upd_other by congruence; assumption);
      try (rewrite upd_other by (apply mark_neq; assumption); assumption);
      try (rewrite upd_other by (apply key_neq; assumption); assumption).
    rewrite upd_other; [assumption|]. destruct G as [G _]. intros E. exact (key_neq n n0 G (eq_sym E)).
  Qed.

  Lemma fresh_run_task : forall s i, fresh s -> fresh (run_task s i).
  Proof.
    intros s i L. unfold run_task. destruct (nth_error (tasks s) i) as [[|e r]|] eqn:E; try exact L.
    pose proof (nth_error_In _ _ E) as Hin. pose proof (f_inv s L) as I.
    assert (Hsub : forall t e', In t (firstn i (tasks s) ++ r :: skipn (S i) (tasks s)) -> In e' t ->
              exists t', In t' (tasks s) /\ In e' t').
    { intros t e' Ht He. apply in_app_or in Ht as [Ht|[<-|Ht]].
      - exists t. split; [|exact He]. rewrite <- (firstn_skipn i (tasks s)). apply in_or_app. left. exact Ht.
      - exists (e :: r). split; [exact Hin|right; exact He].
      - exists t. split; [|exact He]. rewrite <- (firstn_skipn (S i) (tasks s)). apply in_or_app. right. exact Ht. }
    apply fresh_effect.
    - destruct L. constructor; cbn; try assumption.
      + destruct I. constructor; cbn; try assumption.
        intros t e' Ht He. destruct (Hsub t e' Ht He) as (t' & H1 & H2). eauto.
      + intros t e' Ht He. destruct (Hsub t e' Ht He) as (t' & H1 & H2). eauto.
    - exact (i_tasks s I (e :: r) e Hin (or_introl eq_refl)).
    - exact (f_tasks s L (e :: r) e Hin (or_introl eq_refl)).
  Qed.

  Lemma find_path_fresh : forall s n r s', fresh s -> good_name n -> n <> n0 -> find_path s n = (r, s') -> fresh s'.
  Proof.
    intros s n r s' L Hn Hne H. pose proof (f_inv s L) as I. unfold Store_Model.find_path in H.
    destruct (path_last (idx s n)) as [p|] eqn:E; [injection H as <- <-; exact L|].
    destruct (find_mount s (drv s) n) as [p|] eqn:F; injection H as <- <-; [|exact L].
    destruct (find_mount_some _ _ _ _ (i_drv s I) F) as [P _].
    apply (fresh_spawn s [EPut n p] L). intros e [<-|[]]. split; [split; assumption|exact Hne].
  Qed.

  Lemma exist_fresh : forall s n r s', fresh s -> good_name n -> n <> n0 -> exist s n = (r, s') -> fresh s'.
  Proof.
    intros s n r s' L Hn Hne H. unfold Store_Model.exist in H.
    destruct (cch s (locate_prefix ++ n)); [injection H as <- <-; auto|].
    destruct (cch s n); [injection H as <- <-; auto|].
    destruct (find_path s n) as [[p|] s1] eqn:F.
    - pose proof (find_path_fresh _ _ _ _ L Hn Hne F) as L1.
      destruct (find_path_inv _ _ _ _ (f_inv s L) Hn F) as (_ & _ & _ & _ & _ & P).
      destruct (fs s1 p) eqn:Ep; injection H as <- <-.
      + exact (fresh_effect s1 (EMark n) L1 Logic.I Hne).
      + apply (fresh_spawn s1 [ERemove n p] L1).
        intros e [<-|[]]. split; [split; [exact Hn|apply P; reflexivity]|exact Hne].
    - injection H as <- <-. exact (find_path_fresh _ _ _ _ L Hn Hne F).
  Qed.

  Lemma fresh_cache_body : forall s n size bt, fresh s -> good_name n -> n <> n0 ->
    (size <= max_item -> bt <> [] -> bt = content n) -> fresh (cache_body max_item s n size bt).
  Proof.
    intros s n size bt L Hn Hne H. unfold cache_body. destruct (size <=? max_item) eqn:E; [|exact L].
    apply Nat.leb_le in E. destruct bt as [|b bt]; [exact L|].
    apply fresh_spawn; [exact L|]. intros e [<-|[]]. split; [|exact Hne].
    split; [exact Hn|]. apply H; [exact E|discriminate].
  Qed.

  Lemma fresh_fs : forall s n p v, fresh s -> good_name n -> n <> n0 -> p = [] \/ place n p ->
    inv (with_fs s (upd (fs s) p v)) -> fresh (with_fs s (upd (fs s) p v)).
  Proof.
    intros s n p v L Hn Hne Hp I. destruct L. constructor; cbn; try assumption.
    intros m. rewrite upd_other; [auto|]. intros E. destruct Hp as [->|(m' & Hm' & ->)]; [exact (path_nonempty _ _ E)|].
    apply path_inj in E as [_ X]; [congruence|assumption|assumption].
  Qed.

  Lemma step_fresh : forall s o, fresh s -> safe max_item mounts content o -> ~ about n0 o ->
    fresh (snd (step zero storage max_item s o)).
  Proof.
    intros s o L H K. pose proof (step_inv s o (f_inv s L) H) as I'.
    destruct o; cbn [safe step about] in *; try contradiction.
    - destruct H as (Hn & Hm & ->). clear I'. unfold put.
      destruct (content name) as [|c0 c] eqn:C; [exact L|]. rewrite <- C.
      destruct (exist s name) as [[|] s1] eqn:E1; pose proof (exist_fresh _ _ _ _ L Hn K E1) as L1; [exact L1|].
      destruct (exist s1 name) as [[|] s2] eqn:E2; pose proof (exist_fresh _ _ _ _ L1 Hn K E2) as L2.
      + apply fresh_cache_body; try assumption. intros _ X. congruence.
      + destruct (write_file zero s2 (path mp name) (content name) false) as [s3 ok] eqn:W.
        destruct (write_file_inv _ _ _ _ _ _ (f_inv s2 L2) Hn Hm eq_refl W) as (I3 & _).
        assert (L3 : fresh s3).
        { unfold write_file in W. destruct (append_aligned _ _ _ _) as [[f e]|]; injection W as <- <-; [|exact L2].
          apply (fresh_fs s2 name (path mp name)); try assumption. right. exists mp. auto. }
        destruct ok; [|exact L3]. apply fresh_cache_body; try assumption; [|auto].
        apply fresh_spawn; [exact L3|]. intros e [<-|[<-|[]]]; (split; [|exact K]); [|exact Logic.I].
        split; [exact Hn|exists mp; auto].
    - destruct H as (Hn & Hsz). clear I'. unfold get. destruct (cch s name) as [b|] eqn:C; [exact L|].
      destruct (exist s name) as [[|] s1] eqn:E1; pose proof (exist_fresh _ _ _ _ L Hn K E1) as L1; [|exact L1].
      destruct (find_path s1 name) as [[p|] s2] eqn:F; pose proof (find_path_fresh _ _ _ _ L1 Hn K F) as L2; [|exact L2].
      destruct (find_path_inv _ _ _ _ (f_inv s1 L1) Hn F) as (I2 & _ & _ & _ & _ & P).
      unfold get_file. destruct (fs s2 p) as [f|] eqn:Ff; [|exact L2].
      assert (Hp : place name p).
      { destruct (P p eq_refl) as [->|X]; [|exact X]. rewrite (fs_empty s2 I2) in Ff. discriminate. }
      pose proof (fs_name s2 p name f I2 Hn Hp Ff) as Hf.
      cbn [snd]. apply fresh_cache_body; try assumption; [exact (fresh_effect s2 (EMark name) L2 Logic.I K)|].
      intros Hle _. destruct Hsz as [[-> ->]|Hsz]; [|lia]. exact Hf.
    - unfold head. destruct (exist s name) as [[|] s1] eqn:E; exact (exist_fresh _ _ _ _ L H K E).
    - clear I'. unfold delete. assert (L0 : fresh (with_cch s (upd (cch s) name None))).
      { pose proof (f_inv s L) as I. destruct L. constructor; cbn -[locate_prefix app]; try assumption.
        - apply inv_cch; [exact I|discriminate].
        - rewrite upd_other by congruence. assumption.
        - unfold upd. destruct (str_eq_dec _ _); [reflexivity|assumption]. }
      destruct (exist _ name) as [[|] s1] eqn:E1; pose proof (exist_fresh _ _ _ _ L0 H K E1) as L1; [|exact L1].
      destruct (find_path s1 name) as [[p|] s2] eqn:F; pose proof (find_path_fresh _ _ _ _ L1 H K F) as L2;
        destruct (find_path_inv _ _ _ _ (f_inv s1 L1) H F) as (I2 & _ & _ & _ & _ & P); cbn [snd].
      + apply fresh_spawn.
        * apply (fresh_fs s2 name p); try assumption; [apply P; reflexivity|]. apply inv_fs; [exact I2|discriminate].
        * intros e [<-|[<-|[]]]; (split; [|exact K]); [|exact Logic.I]. split; [exact H|apply P; reflexivity].
      + apply fresh_spawn; [exact L2|]. intros e [<-|[<-|[]]]; (split; [|exact K]); [|exact Logic.I].
        split; [exact H|left; reflexivity].
    - destruct H as (Hn & Hm & z & ->). clear I'. unfold commit. destruct (fs s (path mp name)) eqn:F; [exact L|]. cbn [snd].
      apply fresh_spawn.
      + apply (fresh_fs s name (path mp name)); try assumption; [right; exists mp; auto|].
        apply inv_fs; [exact (f_inv s L)|]. intros f E. injection E as <-. exists name. split; [exact Hn|].
        split; [exists mp; auto|apply firstn_own].
      + intros e [<-|[<-|[]]]; (split; [|exact K]); [|exact Logic.I]. split; [exact Hn|exists mp; auto].
    - apply fresh_run_task, L.
    - destruct L. constructor; cbn -[locate_prefix app]; try assumption;
        unfold upd; (destruct (str_eq_dec _ _); [reflexivity|assumption]).
    - destruct L. constructor; cbn -[locate_prefix app]; assumption.
    - destruct L. constructor; cbn -[locate_prefix app]; try assumption; try reflexivity. tauto.
  Qed.

  Lemma run_fresh : forall ops s, fresh s -> Forall (safe max_item mounts content) ops -> Forall (fun o => ~ about n0 o) ops ->
    fresh (run zero storage max_item s ops).
  Proof.
    unfold run. induction ops as [|o ops IH]; intros s L H K; [exact L|].
    inversion H; inversion K; subst. cbn [fold_left]. apply IH; try assumption. apply step_fresh; assumption.
  Qed.

  Lemma fresh_exist : forall s, fresh s -> exist s n0 = (false, s).
  Proof.
    intros s L. unfold Store_Model.exist. rewrite (f_mark s L), (f_cch s L).
    unfold Store_Model.find_path. rewrite (f_idx s L). cbn [path_last].
    assert (F : forall l, find_mount s l n0 = None).
    { induction l as [|m l IH]; [reflexivity|]. cbn. rewrite (f_fs s L m). exact IH. }
    rewrite F. reflexivity.
  Qed.

  Lemma put_fresh_live : forall s, fresh s -> In m0 (drv s) -> content n0 <> [] ->
    fst (put zero storage max_item s n0 m0 (content n0) false) = ROk /\
    live (snd (put zero storage max_item s n0 m0 (content n0) false)).
  Proof.
    intros s L Hd Hc. unfold put. destruct (content n0) as [|c0 c] eqn:C; [congruence|]. rewrite <- C.
    rewrite (fresh_exist s L). cbv iota. rewrite (fresh_exist s L). cbv iota.
    destruct (write_file zero s (path m0 n0) (content n0) false) as [s3 ok] eqn:W.
    destruct (write_file_inv _ _ _ _ _ _ (f_inv s L) Hn0 Hm0 eq_refl W) as (I3 & D3 & Hok & _ & X3 & _ & T3).
    assert (ok = true) as ->.
    { unfold write_file in W. destruct (append_aligned _ _ _ _) as [[f e]|] eqn:A.
      - apply append_ok in A as [-> _]. injection W as _ <-. reflexivity.
      - unfold append_aligned in A.
        destruct (padded_write B zero (2 * block) (content n0) false) as (pad & _ & E & _); [pose proof block_pos; lia|].
        rewrite E in A. discriminate. }
    split; [reflexivity|]. cbn [snd].
    assert (L3 : live s3).
    { constructor.
      - exact I3.
      - rewrite D3. exact Hd.
      - apply Hok. reflexivity.
      - rewrite X3, (f_idx s L). intros x [].
      - rewrite T3. intros t e Ht He. pose proof (f_tasks s L t e Ht He) as X. destruct e; cbn in *; try exact Logic.I; congruence. }
    apply live_cache_body; [|exact Hn0|auto].
    apply live_spawn; [exact L3|]. intros e [<-|[<-|[]]]; [|split; exact Logic.I].
    split; [split; [exact Hn0|exists m0; auto]|]. intros _. apply Hok. reflexivity.
  Qed.

  Lemma stored_found : forall drivers h1 h2, incl drivers mounts ->
    Forall (safe max_item mounts content) h1 -> Forall (fun o => ~ about n0 o) h1 ->
    In m0 (drv (run zero storage max_item (empty_store drivers) h1)) -> content n0 <> [] ->
    Forall (safe max_item mounts content) h2 -> Forall (keeps n0 m0) h2 ->
    answer zero storage max_item (empty_store drivers) h1 (Put n0 m0 (content n0)) = ROk /\
    answer zero storage max_item (empty_store drivers) (h1 ++ Put n0 m0 (content n0) :: h2)
      (Get n0 0 (length (content n0))) = RBytes (content n0).
  Proof.
    intros d h1 h2 Hd S1 A1 Hm Hc S2 K2.
    assert (F0 : fresh (empty_store d)) by (constructor; cbn; try reflexivity; try tauto; apply empty_inv; exact Hd).
    pose proof (run_fresh h1 _ F0 S1 A1) as F.
    destruct (put_fresh_live _ F Hm Hc) as [R L]. split; [exact R|].
    unfold answer. unfold run. rewrite fold_left_app. cbn [fold_left]. cbn [step].
    apply live_get. apply run_live; assumption.
  Qed.
End Inv.

(** Mount points of one length, without comma or percent sign, are good. *)
Lemma same_length_good : forall storage mounts d, storage = d ++ ["/"%char] ->
  (forall c, In c storage -> c <> sep /\ c <> "%"%char) ->
  (forall m c, In m mounts -> In c m -> c <> sep /\ c <> "%"%char) ->
  (forall m m', In m mounts -> In m' mounts -> length m = length m') ->
  good_mounts storage mounts.
Proof.
  intros storage mounts d Hd Hs Hm Hl. split; [exists d; exact Hd|]. split.
  - intros m n Him (_ & Hp & _) (a & b & E).
    assert (X : In "%"%char (path_of storage m n)).
    { rewrite E. apply in_or_app. right. left. reflexivity. }
    unfold path_of in X. apply in_app_or in X as [X|X]; [destruct (Hm m _ Him X); congruence|].
    apply in_app_or in X as [X|X]; [destruct (Hs _ X); congruence|auto].
  - intros m m' n Him Him' _ (a & b & E). unfold path_of in E. rewrite !encode_app in E.
    assert (Em : encode_path m = m) by (apply encode_comma_free; intros X; destruct (Hm m _ Him X); congruence).
    assert (Em' : encode_path m' = m') by (apply encode_comma_free; intros X; destruct (Hm m' _ Him' X); congruence).
    rewrite Em, Em' in E.
    assert (L : length a + length b = 0).
    { apply (f_equal (@List.length ascii)) in E. rewrite !app_length in E. pose proof (Hl m m' Him Him'). lia. }
    destruct a; [|cbn in L; lia]. destruct b; [|cbn in L; lia]. rewrite app_nil_r in E. cbn [app] in E.
    apply app_inv_tail in E. congruence.
Qed.
