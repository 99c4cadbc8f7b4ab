(** Proofs about the database file. *)
From Coq Require Import List Arith Bool Lia.
From Verif Require Import Storage_Model Storage_Spec.
Import ListNotations.

Lemma upd_same : forall A (f : nat -> A) k v, upd f k v k = v.
Proof. intros. unfold upd. now rewrite Nat.eqb_refl. Qed.

Lemma upd_other : forall A (f : nat -> A) k v n, n <> k -> upd f k v n = f n.
Proof. intros. unfold upd. destruct (Nat.eqb_spec n k); [contradiction|reflexivity]. Qed.

Lemma set_nth_other : forall A (l : list A) i j x, i <> j -> nth_error (set_nth l i x) j = nth_error l j.
Proof.
  induction l as [|y l IH]; intros i j x N; [destruct i; reflexivity|].
  destruct i, j; simpl; try congruence; try reflexivity. apply IH. congruence.
Qed.

Lemma set_nth_same : forall A (l : list A) i x y, nth_error l i = Some y -> nth_error (set_nth l i x) i = Some x.
Proof. induction l as [|z l IH]; intros [|i] x y H; simpl in *; try discriminate; eauto. Qed.

Lemma set_nth_in : forall A (l : list A) i x y, In y (set_nth l i x) -> y = x \/ In y l.
Proof.
  induction l as [|z l IH]; intros [|i] x y H; simpl in *; try tauto.
  - destruct H; auto.
  - destruct H as [->|H]; auto. destruct (IH _ _ _ H); auto.
Qed.

Lemma set_nth_len : forall A (l : list A) i x, length (set_nth l i x) = length l.
Proof. induction l as [|z l IH]; intros [|i] x; simpl; auto. Qed.

(** What holds of the process [p] when [want] should be stored. *)
Record good (w : world) (p : proc) (want : list tok) (h : handle) : Prop := {
  gd_cur : the_handle p (p_cur p) = Some h;
  gd_data : w_data w (h_ino h) = want;
  gd_dir : p_stop p <> PDone -> w_dir w (h_path h) = Some (h_ino h);
  gd_done : p_stop p = PDone -> w_dir w 0 = Some (h_ino h) /\ cleaned p;
  gd_first : p_gc p = [] -> h_path h = 0;
  gd_open : p_stop p = PUp -> h_open h = true;
  gd_others : forall k h', the_handle p k = Some h' -> k <> p_cur p -> h_path h' < h_path h;
  gd_gc : forall g, In g (p_gc p) -> g_h g <> p_cur p /\ g_h g < length (p_hs p) /\ (g_removed g = true -> g_closed g = true);
  gd_hold : forall x k, In (x, WLoaded k) (p_writers p) -> k = p_cur p;
  gd_file : p_stop p = PUp -> forall path snap, p_restore p = RWritten path snap \/ p_restore p = RFlagged path snap ->
    path = S (h_path h) /\ exists i, w_dir w path = Some i /\ w_data w i = snap }.

Record sound (w : world) (want : list tok) : Prop := {
  sd_inj : forall a b i, w_dir w a = Some i -> w_dir w b = Some i -> a = b;
  sd_new : forall a i, w_dir w a = Some i -> i < w_next w;
  sd_ino : forall p k h, w_proc w = Some p -> the_handle p k = Some h -> h_ino h < w_next w;
  sd_none : w_proc w = None -> found w = want;
  sd_some : forall p, w_proc w = Some p -> exists h, good w p want h }.

Lemma close_other : forall p k j, k <> j -> nth_error (close_at p k) j = the_handle p j.
Proof.
  intros p k j N. unfold close_at. destruct (the_handle p k); [|reflexivity]. now apply set_nth_other.
Qed.

Lemma close_some : forall p k j h', nth_error (close_at p k) j = Some h' ->
  exists h, the_handle p j = Some h /\ h_path h' = h_path h /\ h_ino h' = h_ino h.
Proof.
  intros p k j h' H. destruct (Nat.eq_dec k j) as [->|N].
  - unfold close_at in H. destruct (the_handle p j) as [h|] eqn:E.
    + rewrite (set_nth_same _ _ _ _ _ E) in H. injection H as <-. exists h. auto.
    + unfold the_handle in E. congruence.
  - rewrite close_other in H by assumption. eauto.
Qed.

Lemma close_len : forall p k, length (close_at p k) = length (p_hs p).
Proof. intros p k. unfold close_at. destruct (the_handle p k); [apply set_nth_len|reflexivity]. Qed.

Lemma close_same : forall p k h, the_handle p k = Some h -> nth_error (close_at p k) k = Some (closed_handle h).
Proof. intros p k h H. unfold close_at. rewrite H. eapply set_nth_same. exact H. Qed.

Lemma wanted_app : forall es es', wanted (es ++ es') =
  fold_left (fun l e => match e with EAck x => l ++ [x] | ERestored snap => snap | ERead _ => l end) es' (wanted es).
Proof. intros. unfold wanted. now rewrite fold_left_app. Qed.

Lemma file_at_some : forall w path i, w_dir w path = Some i -> file_at w path = (i, w).
Proof. intros w path i H. unfold file_at. now rewrite H. Qed.

(** The file got for [path]. *)
Lemma file_at_ok : forall w path i w', file_at w path = (i, w') ->
  (forall a b j, w_dir w a = Some j -> w_dir w b = Some j -> a = b) ->
  (forall a j, w_dir w a = Some j -> j < w_next w) ->
  w_dir w' path = Some i /\ (forall a, a <> path -> w_dir w' a = w_dir w a) /\
  (forall j, j < w_next w -> w_data w' j = w_data w j) /\ w_next w <= w_next w' /\
  (forall a b j, w_dir w' a = Some j -> w_dir w' b = Some j -> a = b) /\
  (forall a j, w_dir w' a = Some j -> j < w_next w') /\
  (w_dir w path = Some i \/ (w_dir w path = None /\ i = w_next w /\ w_data w' i = [])).
Proof.
  intros w path i w' H INJ NEW. unfold file_at in H. destruct (w_dir w path) as [j|] eqn:D.
  - injection H as <- <-. repeat split; auto.
  - injection H as <- <-. simpl. split; [apply upd_same|]. split; [intros; now apply upd_other|].
    split; [intros; apply upd_other; lia|]. split; [lia|].
    assert (forall a j, upd (w_dir w) path (Some (w_next w)) a = Some j ->
      (a = path /\ j = w_next w) \/ (a <> path /\ w_dir w a = Some j)) as U.
    { intros a j. destruct (Nat.eq_dec a path) as [->|N].
      - rewrite upd_same. intros E. injection E as <-. auto.
      - rewrite upd_other by assumption. auto. }
    split.
    { intros a b j HA HB. destruct (U _ _ HA) as [[? ?]|[? HA']], (U _ _ HB) as [[? ?]|[? HB']]; try congruence.
      - apply NEW in HB'. lia.
      - apply NEW in HA'. lia.
      - eauto. }
    split.
    { intros a j HA. destruct (U _ _ HA) as [[? ?]|[? HA']]; [lia|]. apply NEW in HA'. lia. }
    right. rewrite upd_same. auto.
Qed.

Lemma sound_blank : sound blank [].
Proof. constructor; simpl; try discriminate. reflexivity. Qed.

Lemma sound_open : forall w want, sound w want -> w_proc w = None -> sound (open_db w) want.
Proof.
  intros w want [INJ NEW INO NONE _] P. specialize (NONE P). unfold open_db.
  destruct (file_at w 0) as [i w'] eqn:F.
  destruct (file_at_ok _ _ _ _ F INJ NEW) as (D & O & DA & NX & INJ' & NEW' & C).
  constructor; simpl.
  - exact INJ'.
  - exact NEW'.
  - intros p k h E H. injection E as <-. destruct k as [|k]; simpl in H; [|destruct k; discriminate].
    injection H as <-. simpl. eauto.
  - discriminate.
  - intros p E. injection E as <-. exists (mk_handle 0 i true). constructor; simpl; try assumption; auto; try discriminate.
    + unfold found in NONE. destruct C as [C|(C & -> & DN)]; rewrite C in NONE.
      * rewrite DA by eauto. exact NONE.
      * congruence.
    + intros [|k] h' H N; [congruence|]. destruct k; discriminate.
    + intros g [].
    + intros x k [].
    + intros _ path snap [E|E]; discriminate.
Qed.

(** Writers' changes. *)
Lemma good_writers : forall w p want h ws, good w p want h ->
  (forall x k, In (x, WLoaded k) ws -> k = p_cur p) -> good w (with_writers p ws) want h.
Proof. intros w p want h ws [A B C D E F G H I J] W. constructor; auto. Qed.

Lemma sound_put : forall w p p' want h, sound w want -> w_proc w = Some p ->
  (forall k h', the_handle p' k = Some h' -> exists h0, the_handle p k = Some h0 /\ h_ino h' = h_ino h0) ->
  good w p' want h -> sound (mk_world (w_dir w) (w_data w) (w_next w) (Some p')) want.
Proof.
  intros w p p' want h [INJ NEW INO NONE SOME] P HS G. constructor; simpl; try assumption; auto; try discriminate.
  - intros q k h' E H. injection E as <-. destruct (HS k h' H) as (h0 & H0 & ->). eauto.
  - intros q E. injection E as <-. exists h. destruct G as [A B C D E F G H I J]. constructor; auto.
Qed.

Lemma loaded_in : forall (ws : list (tok * wstage)) i x st, nth_error ws i = Some (x, st) ->
  forall y stg, (forall k, stg <> WLoaded k) ->
  forall z k, In (z, WLoaded k) (set_nth ws i (y, stg)) -> In (z, WLoaded k) ws.
Proof.
  intros ws i x st _ y stg NL z k I. apply set_nth_in in I as [I|I]; [|exact I].
  injection I as _ E. symmetry in E. now apply NL in E.
Qed.

Lemma sound_step : forall w es a, sound w (wanted es) -> step_safe w a ->
  let '(w', es') := step w a in sound w' (wanted (es ++ es')).
Proof.
  intros w es a S SAFE. unfold step. destruct (w_proc w) as [p|] eqn:P.
  2:{ destruct a; rewrite app_nil_r; try exact S. now apply sound_open. }
  specialize (SAFE p P). pose proof S as [INJ NEW INO NONE SOME].
  destruct (SOME p P) as [h G]. pose proof G as [CUR DATA DIR DONE FIRST OPEN OTHERS GC HOLD FILE].
  assert (forall k h', the_handle p k = Some h' -> exists h0, the_handle p k = Some h0 /\ h_ino h' = h_ino h0) as SAMEH by eauto.
  assert (sound w (wanted (es ++ []))) as S0 by (now rewrite app_nil_r).
  destruct a as [| |x|i|i|i| |i|snap| | | |i| | ]; cbn [step_proc].
  - exact S0.
  - (* exit *)
    rewrite app_nil_r. constructor; simpl; auto; try discriminate. intros _. unfold found. simpl.
    destruct (p_stop p) eqn:ST.
    + destruct SAFE as [SAFE|]; [|discriminate]. rewrite (FIRST SAFE) in DIR. rewrite DIR by discriminate. exact DATA.
    + destruct SAFE as [SAFE|]; [|discriminate]. rewrite (FIRST SAFE) in DIR. rewrite DIR by discriminate. exact DATA.
    + destruct (DONE eq_refl) as [D _]. rewrite D. exact DATA.
  - (* write begins *)
    rewrite app_nil_r. eapply sound_put with (h := h); eauto. apply good_writers; [exact G|].
    intros y k I. apply in_app_or in I as [I|[I|[]]]; [eauto|discriminate].
  - (* check *)
    destruct (nth_error (p_writers p) i) as [[x st]|] eqn:W; [|exact S0]. destruct st; try exact S0.
    rewrite app_nil_r. eapply sound_put with (h := h); eauto. apply good_writers; [exact G|].
    intros y k I. eapply HOLD. eapply loaded_in; [exact W| |exact I]. intros k'. destruct (p_ro p); discriminate.
  - (* load *)
    destruct (nth_error (p_writers p) i) as [[x st]|] eqn:W; [|exact S0]. destruct st; try exact S0.
    rewrite app_nil_r. eapply sound_put with (h := h); eauto. apply good_writers; [exact G|].
    intros y k I. apply set_nth_in in I as [I|I]; [congruence|eauto].
  - (* commit *)
    destruct (nth_error (p_writers p) i) as [[x st]|] eqn:W; [|exact S0]. destruct st as [| |k|]; try exact S0.
    assert (k = p_cur p) as -> by (eapply HOLD, nth_error_In; exact W).
    rewrite CUR. destruct (h_open h) eqn:OP.
    2:{ rewrite app_nil_r. eapply sound_put with (h := h); eauto. apply good_writers; [exact G|].
        intros y k I. eapply HOLD. refine (loaded_in _ _ _ _ W _ _ _ _ _ I); intros k2; discriminate. }
    rewrite wanted_app. cbn [fold_left]. constructor; simpl; try assumption; auto; try discriminate.
    + intros q k h' E H. injection E as <-. eauto.
    + intros q E. injection E as <-. exists h. constructor; simpl; try assumption; auto.
      * rewrite upd_same. now rewrite DATA.
      * intros y k I. eapply HOLD. refine (loaded_in _ _ _ _ W _ _ _ _ _ I); intros k2; discriminate.
      * intros U path snap R. destruct (FILE U path snap R) as (EP & j & D & V). split; [exact EP|].
        exists j. split; [exact D|]. rewrite upd_other; [exact V|]. intros ->.
        assert (path = h_path h) by (eapply INJ; [exact D|apply DIR; congruence]). lia.
  - (* a reader loads *)
    rewrite app_nil_r. eapply sound_put with (h := h); eauto. constructor; try assumption; auto.
  - (* reads *)
    destruct (nth_error (p_readers p) i) as [k|]; [|exact S0]. destruct (the_handle p k); [|exact S0].
    rewrite wanted_app. exact S.
  - (* the snapshot is written *)
    destruct (p_restore p) eqn:R; try exact S0. rewrite CUR.
    destruct (file_at w (Datatypes.S (h_path h))) as [j w'] eqn:F.
    destruct (file_at_ok _ _ _ _ F INJ NEW) as (D & O & DA & NX & INJ' & NEW' & C).
    rewrite app_nil_r.
    assert (h_ino h < w_next w) as HI by eauto.
    assert (j <> h_ino h) as NJ.
    { destruct C as [C|(_ & -> & _)]; [|lia]. intros ->. destruct (p_stop p) eqn:ST.
      - assert (Datatypes.S (h_path h) = h_path h) by (eapply INJ; [exact C|now apply DIR]). lia.
      - assert (Datatypes.S (h_path h) = h_path h) by (eapply INJ; [exact C|now apply DIR]). lia.
      - assert (Datatypes.S (h_path h) = 0) by (eapply INJ; [exact C|now apply DONE]). lia. }
    constructor; simpl; try assumption; auto; try discriminate.
    + intros q k h' E H. injection E as <-. assert (h_ino h' < w_next w) by eauto. lia.
    + intros q E. injection E as <-. exists h. constructor; simpl; try assumption; auto.
      * rewrite upd_other by congruence. rewrite DA by exact HI. exact DATA.
      * intros ND. rewrite O by lia. auto.
      * intros E. rewrite O by lia. apply DONE in E as [E1 E2]. split; [exact E1|exact E2].
      * intros U path sn [E|E]; [injection E as <- <-|discriminate]. split; [reflexivity|].
        exists j. split; [exact D|apply upd_same].
  - (* rdOnly set *)
    destruct (p_restore p) eqn:R; try exact S0. destruct (p_ro p); rewrite app_nil_r.
    + eapply sound_put with (h := h); eauto. constructor; simpl; try assumption; auto. intros _ ? ? [E|E]; discriminate.
    + eapply sound_put with (h := h); eauto. constructor; simpl; try assumption; auto. intros U ? ? [E|E]; [discriminate|].
      injection E as <- <-. apply FILE; auto.
  - (* the databases are switched *)
    destruct SAFE as [NH UP].
    destruct (p_restore p) as [| |path sn|] eqn:R; try exact S0.
    destruct (FILE UP path sn (or_intror eq_refl)) as (EP & j & D & V). rewrite D.
    rewrite wanted_app. cbn [fold_left].
    assert (length (p_hs p) <> p_cur p) as NC.
    { intros E. unfold the_handle in CUR. rewrite <-E in CUR. assert (nth_error (p_hs p) (length (p_hs p)) = None) by (now apply nth_error_None). congruence. }
    assert (forall k h', nth_error (p_hs p ++ [mk_handle path j true]) k = Some h' ->
      (k < length (p_hs p) /\ the_handle p k = Some h') \/ (k = length (p_hs p) /\ h' = mk_handle path j true)) as NTH.
    { intros k h' H. destruct (Nat.lt_ge_cases k (length (p_hs p))) as [L|L].
      - left. split; [exact L|]. now rewrite nth_error_app1 in H.
      - right. rewrite nth_error_app2 in H by exact L. destruct (k - length (p_hs p)) as [|m] eqn:M; simpl in H.
        + injection H as <-. split; [lia|reflexivity].
        + destruct m; discriminate. }
    constructor; simpl; try assumption; auto; try discriminate.
    + intros q k h' E H. injection E as <-. unfold the_handle in H. simpl in H.
      destruct (NTH _ _ H) as [[_ H']|[_ ->]]; [eauto|simpl; eauto].
    + intros q E. injection E as <-. exists (mk_handle path j true). constructor; simpl; auto.
      * unfold the_handle. simpl. rewrite nth_error_app2 by lia. rewrite Nat.sub_diag. reflexivity.
      * intros X. congruence.
      * intros X. destruct (p_gc p); discriminate.
      * intros k h' H N. unfold the_handle in H. simpl in H. destruct (NTH _ _ H) as [[L H']|[-> _]]; [|congruence].
        destruct (Nat.eq_dec k (p_cur p)) as [->|NE].
        -- rewrite CUR in H'. injection H' as <-. lia.
        -- pose proof (OTHERS _ _ H' NE). lia.
      * intros g I. apply in_app_or in I as [I|[<-|[]]]; simpl.
        -- destruct (GC g I) as (_ & L & RC). rewrite app_length. simpl. repeat split; [lia|lia|exact RC].
        -- rewrite app_length. simpl. repeat split; [congruence| |discriminate].
           assert (nth_error (p_hs p) (p_cur p) <> None) as NN by (unfold the_handle in CUR; congruence).
           apply nth_error_Some in NN. lia.
      * intros x k I. now apply NH in I.
      * intros _ ? ? [E|E]; discriminate.
  - destruct (p_restore p) eqn:R; try exact S0. rewrite app_nil_r. eapply sound_put with (h := h); eauto.
    constructor; simpl; try assumption; auto. intros _ ? ? [E|E]; discriminate.
  - (* clean-up *)
    destruct (nth_error (p_gc p) i) as [g|] eqn:GI; [|exact S0].
    assert (In g (p_gc p)) as IG by (eapply nth_error_In; exact GI).
    assert (forall gc', p_gc p = [] -> gc' = @nil cleaner) as NG by (intros gc' E; rewrite E in IG; destruct IG).
    assert (forall b c, p_gc p <> [] -> set_nth (p_gc p) i (mk_cleaner (g_h g) b c) <> []) as NN.
    { intros b c N E. apply N. apply length_zero_iff_nil. rewrite <-(set_nth_len _ (p_gc p) i (mk_cleaner (g_h g) b c)). now rewrite E. }
    assert (p_gc p <> []) as NE by (intros E; rewrite E in IG; destruct IG).
    destruct (g_closed g) eqn:CL; simpl.
    + destruct (g_removed g) eqn:RM; simpl; [exact S0|].
      destruct (the_handle p (g_h g)) as [h'|] eqn:H'; [|exact S0]. rewrite app_nil_r.
      assert (p_stop p <> PDone) as ND.
      { intros E. destruct (DONE E) as [_ CLN]. rewrite (CLN g IG) in RM. discriminate. }
      assert (h_path h' < h_path h) as LT by (eapply OTHERS; [exact H'|now apply GC]).
      assert (forall a j, upd (w_dir w) (h_path h') None a = Some j -> w_dir w a = Some j) as U.
      { intros a j. unfold upd. destruct (a =? h_path h'); [discriminate|auto]. }
      constructor; simpl; eauto; try discriminate.
      * intros q k h2 E H. injection E as <-. eauto.
      * intros q E. injection E as <-. exists h. constructor; simpl; try assumption; auto.
        -- intros _. rewrite upd_other by lia. auto.
        -- intros E. congruence.
        -- intros E. now apply NN in E.
        -- intros g2 I. apply set_nth_in in I as [->|I]; [|auto]. simpl. destruct (GC g IG) as (N1 & N2 & _). auto.
        -- intros UP path sn RR. destruct (FILE UP path sn RR) as (EP & j & D & V). split; [exact EP|].
           exists j. rewrite upd_other by lia. auto.
    + rewrite app_nil_r. eapply sound_put with (h := h); eauto.
      * intros k h2 H. apply close_some in H as (h0 & H0 & _ & E). eauto.
      * constructor; simpl; auto.
        -- unfold the_handle. simpl. rewrite close_other by (now apply GC). exact CUR.
        -- intros E. destruct (DONE E) as [D CLN]. split; [exact D|]. intros g2 I.
           exfalso. destruct (GC g IG) as (_ & _ & RC). rewrite (RC (CLN g IG)) in CL. discriminate.
        -- intros E. now apply NN in E.
        -- intros k h2 H N. apply close_some in H as (h0 & H0 & -> & _). eauto.
        -- intros g2 I. rewrite close_len. apply set_nth_in in I as [->|I]; [|auto]. simpl.
           destruct (GC g IG) as (N1 & N2 & _). auto.
  - (* Stop closes *)
    destruct (p_stop p) eqn:ST; try exact S0. rewrite app_nil_r. eapply sound_put with (h := closed_handle h); eauto.
    + intros k h2 H. apply close_some in H as (h0 & H0 & _ & E). eauto.
    + constructor; simpl; try assumption; auto; try discriminate.
      * unfold the_handle. simpl. now apply close_same.
      * intros _. apply DIR. congruence.
      * intros k h2 H N. apply close_some in H as (h0 & H0 & -> & _). eauto.
      * rewrite close_len. auto.
  - (* Stop renames *)
    destruct (p_stop p) eqn:ST; try exact S0. rewrite CUR. rewrite app_nil_r.
    assert (w_dir w (h_path h) = Some (h_ino h)) as D by (apply DIR; congruence).
    destruct (Nat.eqb_spec (h_path h) 0) as [Z|Z].
    + constructor; simpl; try assumption; auto; try discriminate.
      * intros q k h2 E H. injection E as <-. eauto.
      * intros q E. injection E as <-. exists h. constructor; simpl; auto; try congruence.
        intros _. rewrite <-Z at 1. auto.
    + rewrite D.
      assert (forall a j, upd (upd (w_dir w) 0 (Some (h_ino h))) (h_path h) None a = Some j ->
        (a = 0 /\ j = h_ino h) \/ (a <> 0 /\ a <> h_path h /\ w_dir w a = Some j)) as U.
      { intros a j. destruct (Nat.eq_dec a (h_path h)) as [->|N1]; [now rewrite upd_same|].
        rewrite upd_other by exact N1. destruct (Nat.eq_dec a 0) as [->|N2].
        - rewrite upd_same. intros E. injection E as <-. auto.
        - rewrite upd_other by exact N2. auto. }
      constructor; simpl; try discriminate.
      * intros a b j HA HB. destruct (U _ _ HA) as [[? ?]|(? & ? & HA')], (U _ _ HB) as [[? ?]|(? & ? & HB')]; subst; try congruence.
        -- assert (b = h_path h) by eauto. congruence.
        -- assert (a = h_path h) by eauto. congruence.
        -- eauto.
      * intros a j HA. destruct (U _ _ HA) as [[? ->]|(? & ? & HA')]; eauto.
      * intros q k h2 E H. injection E as <-. eauto.
      * intros q E. injection E as <-. exists h. constructor; simpl; auto; try congruence.
        intros _. rewrite upd_other by congruence. rewrite upd_same. auto.
Qed.

(** * Runs *)

Definition run_from (s : world * list event) (acts : list action) : world * list event :=
  fold_left (fun s a => let (w', es) := step (fst s) a in (w', snd s ++ es)) acts s.

Lemma sound_run : forall acts w es, sound w (wanted es) -> run_safe w acts ->
  let '(w', es') := run_from (w, es) acts in sound w' (wanted es').
Proof.
  induction acts as [|a acts IH]; intros w es S R; [exact S|].
  destruct R as [R1 R2]. unfold run_from. cbn [fold_left fst snd]. pose proof (sound_step w es a S R1) as SS.
  destruct (step w a) as [w' es']. cbn [fst] in R2. exact (IH w' (es ++ es') SS R2).
Qed.

Lemma run_sound : forall acts, run_safe blank acts -> let '(w, es) := run acts in sound w (wanted es).
Proof. intros acts R. exact (sound_run acts blank [] sound_blank R). Qed.

Lemma restart_wanted : forall acts, run_safe blank acts ->
  let '(w, es) := run acts in
  (w_proc w = None -> found w = wanted es) /\ (w_proc w <> None -> readable w = Some (wanted es)).
Proof.
  intros acts R. pose proof (run_sound acts R) as S. destruct (run acts) as [w es]. split; [apply S|].
  intros N. unfold readable. destruct (w_proc w) as [p|] eqn:P; [|congruence].
  destruct (sd_some _ _ S p P) as [h G]. rewrite (gd_cur _ _ _ _ G). now rewrite (gd_data _ _ _ _ G).
Qed.

Lemma fresh_read : forall acts, run_safe blank acts ->
  let '(w, es) := run acts in
  forall p, w_proc w = Some p -> p_stop p = PUp ->
  snd (step (fst (step w AReadLoad)) (ARead (length (p_readers p)))) = [ERead (Some (wanted es))].
Proof.
  intros acts R. pose proof (run_sound acts R) as S. destruct (run acts) as [w es]. intros p P U.
  destruct (sd_some _ _ S p P) as [h G]. unfold step at 2. rewrite P. cbn [step_proc fst]. unfold step. cbn.
  rewrite nth_error_app2 by lia. rewrite Nat.sub_diag. cbn [nth_error].
  change (the_handle _ (p_cur p)) with (the_handle p (p_cur p)). rewrite (gd_cur _ _ _ _ G).
  cbn. now rewrite (gd_open _ _ _ _ G U), (gd_data _ _ _ _ G).
Qed.

(** Without a switch every clause holds. *)
Definition no_gc (w : world) : Prop := forall p, w_proc w = Some p -> p_gc p = [].

Lemma no_gc_step : forall w a, no_gc w -> a <> ARestoreSwap -> no_gc (fst (step w a)).
Proof.
  intros w a N NA. unfold step. destruct (w_proc w) as [p|] eqn:P.
  - pose proof (N p P) as G.
    destruct a; cbn [step_proc]; try congruence;
    repeat match goal with |- context [match ?x with _ => _ end] => destruct x eqn:? end;
    cbn [fst]; try exact N; intros q E; cbn in E; try discriminate; try (injection E as <-; exact G).
    all: try (rewrite G in *; destruct i; discriminate).
  - destruct a; try exact N. unfold open_db. destruct (file_at w 0) as [i w']. cbn. intros q E. injection E as <-. reflexivity.
Qed.

Lemma no_swap_safe : forall acts w, no_gc w -> ~ In ARestoreSwap acts -> run_safe w acts.
Proof.
  induction acts as [|a acts IH]; intros w N NI; [exact I|]. split.
  - intros p P. pose proof (N p P) as G. destruct a; try exact I.
    + now left.
    + exfalso. apply NI. now left.
    + intros g Ig. rewrite G in Ig. destruct Ig.
  - apply IH; [apply no_gc_step; [exact N|]|].
    + intros ->. apply NI. now left.
    + intros X. apply NI. now right.
Qed.

Lemma no_gc_run : forall acts w es, no_gc w -> ~ In ARestoreSwap acts -> no_gc (fst (run_from (w, es) acts)).
Proof.
  induction acts as [|a acts IH]; intros w es N NI; [exact N|].
  unfold run_from. cbn [fold_left fst snd]. pose proof (no_gc_step w a N) as SS.
  destruct (step w a) as [w' es']. apply IH.
  - apply SS. intros ->. apply NI. now left.
  - intros X. apply NI. now right.
Qed.

Lemma never_restored : forall acts, ~ In ARestoreSwap acts ->
  let '(w, es) := run acts in found w = wanted es.
Proof.
  intros acts NI. assert (no_gc blank) as N0 by (intros p E; discriminate).
  pose proof (run_sound acts (no_swap_safe acts blank N0 NI)) as S.
  pose proof (no_gc_run acts blank [] N0 NI) as N. fold (run acts) in N. change (run_from (blank, []) acts) with (run acts) in N.
  destruct (run acts) as [w es]. cbn [fst] in N. destruct (w_proc w) as [p|] eqn:P; [|now apply S].
  destruct (sd_some _ _ S p P) as [h G]. pose proof (gd_first _ _ _ _ G (N p P)) as F. unfold found.
  rewrite <-(gd_data _ _ _ _ G). destruct (p_stop p) eqn:ST.
  - pose proof (gd_dir _ _ _ _ G) as D. rewrite F in D. rewrite D by congruence. reflexivity.
  - pose proof (gd_dir _ _ _ _ G) as D. rewrite F in D. rewrite D by congruence. reflexivity.
  - destruct (gd_done _ _ _ _ G ST) as [D _]. rewrite D. reflexivity.
Qed.


(** * Deciding the clauses *)

Definition step_safe_b (w : world) (a : action) : bool :=
  match w_proc w with
  | None => true
  | Some p =>
      match a with
      | ARestoreSwap => forallb (fun xs => match snd xs with WLoaded _ => false | _ => true end) (p_writers p)
                        && match p_stop p with PUp => true | _ => false end
      | AStopRename => forallb g_removed (p_gc p)
      | AExit => match p_gc p with [] => true | _ => match p_stop p with PDone => true | _ => false end end
      | _ => true
      end
  end.

Fixpoint run_safe_b (w : world) (acts : list action) : bool :=
  match acts with
  | [] => true
  | a :: acts' => step_safe_b w a && run_safe_b (fst (step w a)) acts'
  end.

Lemma run_safe_dec : forall acts w, run_safe_b w acts = true -> run_safe w acts.
Proof.
  induction acts as [|a acts IH]; intros w H; [exact I|]. cbn in H. apply andb_true_iff in H as [H1 H2].
  split; [|now apply IH]. intros p P. unfold step_safe_b in H1. rewrite P in H1. destruct a; try exact I.
  - destruct (p_gc p); [now left|]. right. destruct (p_stop p); congruence.
  - apply andb_true_iff in H1 as [A B]. split; [|destruct (p_stop p); congruence].
    intros x k In. rewrite forallb_forall in A. specialize (A _ In). discriminate.
  - intros g In. rewrite forallb_forall in H1. auto.
Qed.

(** ** The read-only flag *)

Definition busy_b (r : rstage) : bool := match r with RFlagged _ _ | RSwapped => true | _ => false end.

Lemma flag_step : forall w a, (forall p, w_proc w = Some p -> p_ro p = busy_b (p_restore p)) ->
  forall p, w_proc (fst (step w a)) = Some p -> p_ro p = busy_b (p_restore p).
Proof.
  intros w a H p'. unfold step. destruct (w_proc w) as [p|] eqn:W.
  - specialize (H p eq_refl).
    destruct a; cbn [step_proc];
      repeat match goal with
      | |- context [match ?x with _ => _ end] => destruct x eqn:?; cbn [fst w_proc]
      end; cbn [fst w_proc]; intros E; try discriminate E; try (rewrite W in E); try (injection E as <-); cbn [p_ro p_restore with_writers]; try assumption; try reflexivity;
      try congruence.
  - destruct a; cbn [fst]; intros E; try congruence. unfold open_db in E. destruct (file_at w 0) as [i w']. cbn in E. injection E as <-.
    reflexivity.
Qed.

Lemma flag_run : forall acts w es, (forall p, w_proc w = Some p -> p_ro p = busy_b (p_restore p)) ->
  forall p, w_proc (fst (run_from (w, es) acts)) = Some p -> p_ro p = busy_b (p_restore p).
Proof.
  induction acts as [|a acts IH]; intros w es H p E; [exact (H p E)|]. unfold run_from in *. cbn [fold_left fst snd] in E.
  destruct (step w a) as [w' es'] eqn:ST. refine (IH w' (es ++ es') _ p E).
  intros q Q. apply (flag_step w a H). rewrite ST. exact Q.
Qed.

Lemma nth_error_end : forall A (l : list A) x, nth_error (l ++ [x]) (length l) = Some x.
Proof. intros A l x. rewrite nth_error_app2, Nat.sub_diag; [reflexivity|auto]. Qed.

Lemma run_from_cons : forall w es a acts, run_from (w, es) (a :: acts) = let (w', es') := step w a in run_from (w', es ++ es') acts.
Proof. intros w es a acts. unfold run_from. cbn [fold_left fst snd]. destruct (step w a). reflexivity. Qed.

Lemma write_refused : forall w es p x, w_proc w = Some p -> p_ro p = true ->
  let n := length (p_writers p) in
  run_from (w, es) [AWrite x; ACheck n; ALoad n; ACommit n] =
    (mk_world (w_dir w) (w_data w) (w_next w) (Some (with_writers p (p_writers p ++ [(x, WReturned false)]))), es).
Proof.
  intros w es p x W RO n.
  assert (forall y, set_nth (p_writers p ++ [(x, WBegun)]) n y = p_writers p ++ [y]) as SN.
  { intros y. unfold n. clear. induction (p_writers p) as [|z l IH]; [reflexivity|]. cbn. f_equal. exact IH. }
  rewrite run_from_cons. unfold step. rewrite W. cbn [step_proc]. rewrite app_nil_r.
  rewrite run_from_cons. unfold step. cbn [w_proc step_proc with_writers p_writers p_ro w_dir w_data w_next p_hs p_cur p_readers p_restore p_gc p_stop].
  unfold n at 1. rewrite nth_error_end, RO, SN, app_nil_r.
  rewrite run_from_cons. unfold step. cbn [w_proc step_proc with_writers p_writers p_ro w_dir w_data w_next p_hs p_cur p_readers p_restore p_gc p_stop].
  unfold n at 1. rewrite nth_error_end, app_nil_r.
  rewrite run_from_cons. unfold step. cbn [w_proc step_proc with_writers p_writers p_ro w_dir w_data w_next p_hs p_cur p_readers p_restore p_gc p_stop].
  unfold n at 1. rewrite nth_error_end, app_nil_r. reflexivity.
Qed.
