From Verif Require Import Rs_Model Copy_Model Net_Model Net_Spec.
From Coq Require Import List Arith Bool Lia.
Import ListNotations.

(** ** Without failures *)
Section Pure.
  Context {B : Type}.
  Variables (bs : nat) (row : nat -> list B -> list (list B)).

  Definition pure : Type := list B * list (list (list B)).
  Definition pflush (p : pure) : pure :=
    match fst p with [] => p | c => ([], snd p ++ [row (length (snd p)) c]) end.
  Fixpoint pwrite (fuel : nat) (p : pure) (bt : list B) : option pure :=
    match bt with
    | [] => Some p
    | _ =>
        match fuel with
        | O => None
        | S f =>
            let next := Nat.min (bs - length (fst p)) (length bt) in
            let p1 := (fst p ++ firstn next bt, snd p) in
            let p2 := if bs <=? length (fst p1) then pflush p1 else p1 in
            pwrite f p2 (skipn next bt)
        end
    end.
  Fixpoint pwrites (fuel : nat) (p : pure) (bts : list (list B)) : option pure :=
    match bts with
    | [] => Some p
    | bt :: rest => match pwrite fuel p bt with Some p' => pwrites fuel p' rest | None => None end
    end.

  Lemma pflush_cache : forall p, fst (pflush p) = [].
  Proof. intros [[|b c] r]; reflexivity. Qed.

  Lemma pflush_rows : forall p, fst p <> [] -> snd (pflush p) <> [].
  Proof. intros [[|b c] r] H; [contradiction H; reflexivity|]. cbn. destruct r; discriminate. Qed.

  (** The loop ends if there is room. *)
  Lemma pwrite_ends : forall fuel bt p, length (fst p) < bs -> length bt <= fuel ->
    exists p', pwrite fuel p bt = Some p' /\ length (fst p') < bs.
  Proof.
    induction fuel as [|f IH]; intros bt p R L.
    - destruct bt; [exists p; split; [reflexivity|exact R]|cbn in L; lia].
    - destruct bt as [|b bt]; [exists p; split; [reflexivity|exact R]|].
      cbn [pwrite]. set (l := b :: bt) in *. assert (0 < length l) as L0 by (unfold l; cbn; lia).
      clearbody l. apply IH.
      + cbn [fst]. destruct (bs <=? length (fst p ++ firstn (Nat.min (bs - length (fst p)) (length l)) l)) eqn:E.
        * rewrite pflush_cache. cbn. lia.
        * cbn [fst]. apply Nat.leb_gt in E. exact E.
      + rewrite skipn_length. lia.
  Qed.

  Lemma pwrites_end : forall fuel bts p, length (fst p) < bs -> Forall (fun bt => length bt <= fuel) bts ->
    exists p', pwrites fuel p bts = Some p'.
  Proof.
    induction bts as [|bt rest IH]; intros p R F; [exists p; reflexivity|].
    apply Forall_cons_iff in F as [F1 F2]. cbn [pwrites].
    destruct (pwrite_ends fuel bt p R F1) as (p' & -> & R'). apply IH; assumption.
  Qed.

  (** As long as nothing is sent, everything is kept. *)
  Definition kept (p : pure) (fed : list B) : Prop := snd p = [] -> fst p = fed.

  Lemma pwrite_kept : forall fuel bt p p' fed, kept p fed -> pwrite fuel p bt = Some p' -> kept p' (fed ++ bt).
  Proof.
    induction fuel as [|f IH]; intros bt p p' fed K H.
    - destruct bt; [|discriminate]. injection H as <-. rewrite app_nil_r. exact K.
    - destruct bt as [|b bt]; [injection H as <-; rewrite app_nil_r; exact K|].
      cbn [pwrite] in H. set (l := b :: bt) in *. assert (l <> []) as L0 by discriminate. clearbody l.
      set (next := Nat.min (bs - length (fst p)) (length l)) in *.
      rewrite <- (firstn_skipn next l), app_assoc.
      eapply IH; [|exact H]. unfold kept. intros S0. cbn [fst] in *.
      destruct (bs <=? length (fst p ++ firstn next l)) eqn:E.
      + destruct (fst p ++ firstn next l) as [|x y] eqn:Z.
        * unfold pflush in *. cbn [fst snd] in *. pose proof (K S0) as K0. rewrite K0 in Z. symmetry. exact Z.
        * exfalso. unfold pflush in S0. cbn in S0. destruct (snd p); discriminate.
      + cbn in *. rewrite (K S0). reflexivity.
  Qed.

  Lemma pwrites_kept : forall fuel bts p p' fed, kept p fed -> pwrites fuel p bts = Some p' -> kept p' (fed ++ concat bts).
  Proof.
    induction bts as [|bt rest IH]; intros p p' fed K H.
    - injection H as <-. cbn. rewrite app_nil_r. exact K.
    - cbn [pwrites] in H. destruct (pwrite fuel p bt) as [q|] eqn:W; [|discriminate].
      cbn [concat]. rewrite app_assoc. eapply IH; [|exact H]. eapply pwrite_kept; eassumption.
  Qed.

  Lemma rows_left : forall fuel bts p, pwrites fuel ([], []) bts = Some p -> concat bts <> [] -> snd (pflush p) <> [].
  Proof.
    intros fuel bts p H N. pose proof (pwrites_kept fuel bts ([], []) p [] (fun _ => eq_refl) H) as K. cbn in K.
    destruct (fst p) as [|b c] eqn:E.
    - unfold pflush. rewrite E. intros S0. apply N. rewrite <- (K S0). exact E.
    - apply pflush_rows. rewrite E. discriminate.
  Qed.
End Pure.

(** ** With failures *)
Section Net.
  Context {B : Type}.
  Variables (n bs : nat) (row : nat -> list B -> list (list B)) (skips : bool) (e : env B).
  Notation flush := (Net_Model.flush n row e).
  Notation write := (Net_Model.write n bs row e).
  Notation writes := (Net_Model.writes n bs row e).
  Notation stream_to := (Net_Model.stream_to n bs row skips e).

  Definition column (i : nat) (rows : list (list (list B))) : list (list B) := map (fun r => nth i r []) rows.

  Lemma wait_false : forall g h, wait n e g h = false <-> ev_lost e g = true \/ forall i, i < n -> h i = false.
  Proof.
    intros g h. unfold wait. rewrite andb_false_iff, negb_false_iff. split.
    - intros [H|H]; [right|left; exact H]. intros i L.
      destruct (h i) eqn:E; [|reflexivity]. rewrite <- H. symmetry. apply existsb_exists. exists i. split; [|exact E].
      unfold writers. apply in_seq. lia.
    - intros [H|H]; [right; exact H|left]. destruct (existsb h (writers n)) eqn:E; [|reflexivity].
      apply existsb_exists in E as (i & I & T). unfold writers in I. apply in_seq in I. rewrite H in T by lia. discriminate.
  Qed.

  Lemma wait_true : forall g h, wait n e g h = true <-> ev_lost e g = false /\ exists i, i < n /\ h i = true.
  Proof.
    intros g h. unfold wait. rewrite andb_true_iff, negb_true_iff, existsb_exists. unfold writers. split.
    - intros [(i & I & T) L]. apply in_seq in I. split; [exact L|]. exists i. split; [lia|exact T].
    - intros (L & i & I & T). split; [|exact L]. exists i. split; [apply in_seq; lia|exact T].
  Qed.

  Record inv (s : @stream B) (p : @pure B) : Prop := {
    v_cache : s_cache s = fst p;
    v_count : s_flushed s = length (snd p);
    v_file : forall i, opened e i = true -> (forall k, k < length (snd p) -> ev_patch e k i = SFine) ->
      s_files s i = Piece (Some (column i (snd p))) None;
    v_good : none_lost e -> forall i k, i < n -> k < length (snd p) -> patch_fails e k i = false }.

  Lemma post_opened : forall i, opened e i = true -> post e i = Piece (Some []) None.
  Proof. intros i. unfold opened, post. destruct (ev_post e i) as [|d]; [reflexivity|discriminate]. Qed.

  Lemma inv_init : inv (Stream [] 0 (post e)) ([], []).
  Proof.
    constructor; cbn; try reflexivity.
    - intros i O _. apply post_opened. exact O.
    - intros _ i k _ L. lia.
  Qed.

  Lemma flush_inv : forall s p s', inv s p -> flush s = (s', false) -> inv s' (pflush row p).
  Proof.
    intros s [c rows] s' [Vc Vn Vf Vg] H. cbn [fst snd] in *. unfold Net_Model.flush in H. rewrite Vc in H.
    destruct c as [|b c].
    - injection H as <-. unfold pflush. cbn [fst]. constructor; cbn [fst snd]; assumption.
    - set (c0 := b :: c) in *. assert (pflush row (c0, rows) = ([], rows ++ [row (length rows) c0])) as ->.
      { unfold pflush. cbn [fst snd]. unfold c0. reflexivity. }
      clearbody c0. injection H as <- W. rewrite Vn in *.
      constructor; cbn [s_cache s_flushed s_files fst snd]; [reflexivity| | |].
      + rewrite app_length. cbn. lia.
      + rewrite app_length. cbn [length]. intros i O P. unfold patch. rewrite O.
        rewrite (P (length rows)) by lia. unfold append. rewrite (Vf i O) by (intros k L; apply P; lia). cbn.
        unfold column. rewrite map_app. reflexivity.
      + rewrite app_length. cbn [length]. intros NL i k Li Lk.
        destruct (Nat.eq_dec k (length rows)) as [->|N0]; [|apply Vg; [exact NL|exact Li|lia]].
        apply wait_false in W as [W|W]; [rewrite NL in W; discriminate|]. apply W. exact Li.
  Qed.

  Lemma write_inv : forall fuel bt s p s', inv s p -> write fuel s bt = Some (s', false) ->
    exists p', pwrite bs row fuel p bt = Some p' /\ inv s' p'.
  Proof.
    induction fuel as [|f IH]; intros bt s p s' V H.
    - destruct bt; [|discriminate]. injection H as <-. exists p. split; [reflexivity|exact V].
    - destruct bt as [|b bt]; [injection H as <-; exists p; split; [reflexivity|exact V]|].
      cbn [Net_Model.write pwrite] in *. set (l := b :: bt) in *. clearbody l.
      rewrite (v_cache s p V) in H. cbn [s_cache fst] in *.
      set (next := Nat.min (bs - length (fst p)) (length l)) in *.
      assert (inv (Stream (fst p ++ firstn next l) (s_flushed s) (s_files s)) (fst p ++ firstn next l, snd p)) as V1.
      { destruct V as [Vc Vn Vf Vg]. constructor; cbn [s_cache s_flushed s_files fst snd]; [reflexivity|exact Vn|exact Vf|exact Vg]. }
      destruct (bs <=? length (fst p ++ firstn next l)).
      + destruct (flush (Stream (fst p ++ firstn next l) (s_flushed s) (s_files s))) as [s2 bad] eqn:Fl.
        destruct bad; [discriminate|].
        pose proof (flush_inv _ _ _ V1 Fl) as V2. exact (IH _ _ _ _ V2 H).
      + exact (IH _ _ _ _ V1 H).
  Qed.

  Lemma writes_inv : forall fuel bts s p s', inv s p -> writes fuel s bts = Some (s', false) ->
    exists p', pwrites bs row fuel p bts = Some p' /\ inv s' p'.
  Proof.
    induction bts as [|bt rest IH]; intros s p s' V H.
    - injection H as <-. exists p. split; [reflexivity|exact V].
    - cbn [Net_Model.writes pwrites] in *. destruct (write fuel s bt) as [[s1 bad]|] eqn:W; [|discriminate].
      destruct bad; [discriminate|]. destruct (write_inv _ _ _ _ _ V W) as (p1 & -> & V1). exact (IH _ _ _ V1 H).
  Qed.

  (** An upload that is stored. *)
  Lemma stored_inv : forall checksum digest fuel chunks broken f,
    stream_to checksum digest fuel chunks broken = Some (Stored, f) ->
    broken = false /\ (checksum = true -> digest (concat chunks) = true) /\
    exists p, pwrites bs row fuel ([], []) chunks = Some p /\
      (forall i, i < n -> answers e i -> snd (pflush row p) <> [] -> holds f i (column i (snd (pflush row p)))) /\
      (none_lost e -> forall i, i < n -> holds f i (column i (snd (pflush row p)))).
  Proof.
    intros checksum digest fuel chunks broken f H. unfold Net_Model.stream_to in H.
    destruct (wait n e GOpen (fun i => negb (opened e i))) eqn:W0; [discriminate|].
    destruct (writes fuel (Stream [] 0 (post e)) chunks) as [[s bad]|] eqn:Ws; [|discriminate].
    destruct (bad || broken) eqn:BB; [destruct checksum; discriminate|]. apply orb_false_iff in BB as [-> ->].
    destruct (checksum && negb (digest (concat chunks))) eqn:D; [discriminate|].
    split; [reflexivity|]. split; [intros ->; cbn in D; destruct (digest (concat chunks)); [reflexivity|discriminate]|].
    destruct (writes_inv _ _ _ _ _ inv_init Ws) as (p & P & V). exists p. split; [exact P|].
    destruct (Net_Model.commit n row skips e s) as [f0 bad] eqn:C. destruct bad; [discriminate|]. injection H as ->.
    unfold Net_Model.commit in C. destruct (flush s) as [s1 bad] eqn:Fl. destruct bad; [discriminate|].
    pose proof (f_equal fst C) as C1. pose proof (f_equal snd C) as C2. cbn [fst snd] in C1, C2. clear C.
    pose proof (flush_inv _ _ _ V Fl) as [_ _ Vf Vg]. set (q := pflush row p) in *. clearbody q. split.
    - intros i L (A1 & A2 & A3) NE.
      assert (opened e i = true) as O by (unfold opened; rewrite A1; reflexivity).
      rewrite <- C1. unfold holds, put. rewrite O, A3, (Vf i O) by (intros; apply A2). cbn.
      destruct (snd q) as [|r rs]; [contradiction NE; reflexivity|]. cbn. split; reflexivity.
    - intros NL i L.
      assert (opened e i = true) as O.
      { apply wait_false in W0 as [W0|W0]; [rewrite NL in W0; discriminate|]. apply W0 in L. destruct (opened e i); [reflexivity|discriminate]. }
      assert (s_files s1 i = Piece (Some (column i (snd q))) None) as F.
      { apply Vf; [exact O|]. intros k Lk. pose proof (Vg NL i k L Lk) as G. unfold patch_fails in G. rewrite O in G. cbn in G.
        destruct (ev_patch e k i); [reflexivity|discriminate]. }
      apply wait_false in C2 as [C2|C2]; [rewrite NL in C2; discriminate|]. specialize (C2 i L).
      rewrite <- C1. unfold put_fails in C2. unfold holds, put. rewrite O, F in *. cbn [p_temp] in *.
      destruct (ev_put e i); [|discriminate]. destruct (column i (snd q)) as [|x y]; [discriminate|]. split; reflexivity.
  Qed.

  (** Nothing becomes an object before the commit. *)
  Lemma patch_obj : forall k i b p, p_obj p = None -> p_obj (patch e k i b p) = None.
  Proof.
    intros k i b p H. unfold patch, append. destruct (opened e i); [|exact H].
    destruct (ev_patch e k i) as [|[b'|]]; [destruct (p_temp p); exact H|destruct (p_temp p); exact H|exact H].
  Qed.
  Definition no_object (f : nat -> piece B) : Prop := forall i, p_obj (f i) = None.

  Lemma flush_obj : forall s, no_object (s_files s) -> no_object (s_files (fst (flush s))).
  Proof.
    intros s H i. unfold Net_Model.flush. destruct (s_cache s) as [|b c]; [apply H|].
    set (c0 := b :: c). clearbody c0. cbn. apply patch_obj. apply H.
  Qed.
  Lemma write_obj : forall fuel bt s s' bad, no_object (s_files s) -> write fuel s bt = Some (s', bad) -> no_object (s_files s').
  Proof.
    induction fuel as [|f IH]; intros bt s s' bad N H.
    - destruct bt; [|discriminate]. injection H as <- _. exact N.
    - destruct bt as [|b bt]; [injection H as <- _; exact N|].
      cbn [Net_Model.write] in H. set (l := b :: bt) in *. clearbody l. cbn [s_cache] in H.
      set (next := Nat.min (bs - length (s_cache s)) (length l)) in *.
      set (s1 := Stream (s_cache s ++ firstn next l) (s_flushed s) (s_files s)) in *.
      assert (no_object (s_files s1)) as N1 by exact N.
      destruct (bs <=? length (s_cache s ++ firstn next l)).
      + pose proof (flush_obj s1 N1) as N2. destruct (flush s1) as [s2 b2]. cbn in N2.
        destruct b2; [injection H as <- _; exact N2|exact (IH _ _ _ _ N2 H)].
      + exact (IH _ _ _ _ N1 H).
  Qed.
  Lemma writes_obj : forall fuel bts s s' bad, no_object (s_files s) -> writes fuel s bts = Some (s', bad) -> no_object (s_files s').
  Proof.
    induction bts as [|bt rest IH]; intros s s' bad N H.
    - injection H as <- _. exact N.
    - cbn [Net_Model.writes] in H. destruct (write fuel s bt) as [[s1 b1]|] eqn:W; [|discriminate].
      pose proof (write_obj _ _ _ _ _ N W) as N1. destruct b1; [injection H as <- _; exact N1|exact (IH _ _ _ N1 H)].
  Qed.
  Lemma post_obj : no_object (post e).
  Proof. intros i. unfold post. destruct (ev_post e i) as [|[|]]; reflexivity. Qed.
  Lemma abort_obj : forall s, no_object (s_files s) -> no_object (Net_Model.abort n row e s).
  Proof.
    intros s N i. unfold abort. pose proof (flush_obj s N) as N1. destruct (flush s) as [s1 b1]. cbn in N1.
    destruct b1; [apply N1|]. unfold delete. destruct (opened e i); [|apply N1]. destruct (ev_del e i) as [|[|]]; cbn; apply N1.
  Qed.

  Lemma no_objects : forall checksum digest fuel chunks broken t f,
    stream_to checksum digest fuel chunks broken = Some (t, f) -> t <> Stored -> t <> Unavailable -> no_object f.
  Proof.
    intros checksum digest fuel chunks broken t f H N1 N2. unfold Net_Model.stream_to in H.
    destruct (wait n e GOpen (fun i => negb (opened e i))); [injection H as <- <-; exact post_obj|].
    destruct (writes fuel (Stream [] 0 (post e)) chunks) as [[s bad]|] eqn:Ws; [|discriminate].
    pose proof (writes_obj _ _ (Stream [] 0 (post e)) _ _ post_obj Ws) as N0.
    destruct (bad || broken); [injection H as _ <-; apply abort_obj; exact N0|].
    destruct (checksum && negb (digest (concat chunks))); [injection H as _ <-; apply abort_obj; exact N0|].
    destruct (Net_Model.commit n row skips e s) as [f0 [|]]; injection H as <- _; congruence.
  Qed.

  (** After a failed flush nothing is left to be sent. *)
  Lemma flush_empty : forall s, s_cache (fst (flush s)) = [].
  Proof. intros s. unfold Net_Model.flush. destruct (s_cache s) eqn:E; [exact E|reflexivity]. Qed.
  Lemma write_empty : forall fuel bt s s', write fuel s bt = Some (s', true) -> s_cache s' = [].
  Proof.
    induction fuel as [|f IH]; intros bt s s' H; [destruct bt; discriminate|].
    destruct bt as [|b bt]; [discriminate|]. cbn [Net_Model.write] in H. set (l := b :: bt) in *. clearbody l. cbn [s_cache] in H.
    set (next := Nat.min (bs - length (s_cache s)) (length l)) in *.
    set (s1 := Stream (s_cache s ++ firstn next l) (s_flushed s) (s_files s)) in *.
    destruct (bs <=? length (s_cache s ++ firstn next l)); [|exact (IH _ _ _ H)].
    pose proof (flush_empty s1) as N2. destruct (flush s1) as [s2 b2]. cbn in N2.
    destruct b2; [injection H as <-; exact N2|exact (IH _ _ _ H)].
  Qed.
  Lemma writes_empty : forall fuel bts s s', writes fuel s bts = Some (s', true) -> s_cache s' = [].
  Proof.
    induction bts as [|bt rest IH]; intros s s' H; [discriminate|].
    cbn [Net_Model.writes] in H. destruct (write fuel s bt) as [[s1 b1]|] eqn:W; [|discriminate].
    destruct b1; [injection H as <-; exact (write_empty _ _ _ _ W)|exact (IH _ _ H)].
  Qed.

  Definition all_open : Prop := forall i, i < n -> ev_post e i = Fine.
  Definition all_patched : Prop := forall k i, i < n -> ev_patch e k i = SFine.

  Lemma flush_fine : all_open -> all_patched -> forall s, snd (flush s) = false.
  Proof.
    intros O P s. unfold Net_Model.flush. destruct (s_cache s); [reflexivity|]. cbn. apply wait_false. right.
    intros i L. unfold patch_fails, opened. rewrite O, P by exact L. reflexivity.
  Qed.

  Lemma abort_clean : forall s, (snd (flush s) = false) -> all_open -> (forall i, i < n -> ev_del e i = Fine) ->
    no_object (s_files s) -> clean (Net_Model.abort n row e s) n.
  Proof.
    intros s F O D N i L. split; [apply abort_obj; exact N|]. unfold abort.
    destruct (flush s) as [s1 b1]. cbn in F. subst b1. unfold delete, opened. rewrite O, D by exact L. reflexivity.
  Qed.

  Lemma refused_clean : forall checksum digest fuel chunks broken t f,
    stream_to checksum digest fuel chunks broken = Some (t, f) -> t = Invalid \/ t = Internal ->
    all_open -> (forall i, i < n -> ev_del e i = Fine) ->
    all_patched \/ (broken = false /\ (checksum = true -> digest (concat chunks) = true)) -> clean f n.
  Proof.
    intros checksum digest fuel chunks broken t f H T O D P. unfold Net_Model.stream_to in H.
    destruct (wait n e GOpen (fun i => negb (opened e i))); [destruct T as [-> | ->]; discriminate|].
    destruct (writes fuel (Stream [] 0 (post e)) chunks) as [[s bad]|] eqn:Ws; [|discriminate].
    pose proof (writes_obj _ _ (Stream [] 0 (post e)) _ _ post_obj Ws) as N0.
    assert (bad = true \/ all_patched -> clean (Net_Model.abort n row e s) n) as A.
    { intros [-> | A]; apply abort_clean; try assumption.
      - unfold Net_Model.flush. rewrite (writes_empty _ _ _ _ Ws). reflexivity.
      - apply flush_fine; assumption. }
    destruct (bad || broken) eqn:BB.
    - injection H as _ <-. apply A. destruct P as [P|[-> _]]; [right; exact P|]. rewrite orb_false_r in BB. left. exact BB.
    - destruct (checksum && negb (digest (concat chunks))) eqn:Dg.
      + injection H as _ <-. apply A. destruct P as [P|[_ P]]; [right; exact P|].
        apply andb_true_iff in Dg as [-> Dg]. rewrite P in Dg by reflexivity. discriminate.
      + destruct (Net_Model.commit n row skips e s) as [f0 [|]]; injection H as <- _; destruct T; discriminate.
  Qed.

  (** ** With servers that answer *)
  Lemma write_fine : all_open -> all_patched -> forall fuel bt s s' bad, write fuel s bt = Some (s', bad) -> bad = false.
  Proof.
    intros O P. induction fuel as [|f IH]; intros bt s s' bad H.
    - destruct bt; [|discriminate]. injection H as _ <-. reflexivity.
    - destruct bt as [|b bt]; [injection H as _ <-; reflexivity|].
      cbn [Net_Model.write] in H. set (l := b :: bt) in *. clearbody l. cbn [s_cache] in H.
      set (next := Nat.min (bs - length (s_cache s)) (length l)) in *.
      set (s1 := Stream (s_cache s ++ firstn next l) (s_flushed s) (s_files s)) in *.
      destruct (bs <=? length (s_cache s ++ firstn next l)); [|exact (IH _ _ _ _ H)].
      pose proof (flush_fine O P s1) as G. destruct (flush s1) as [s2 b2]. cbn in G. subst b2. exact (IH _ _ _ _ H).
  Qed.
  Lemma writes_fine : all_open -> all_patched -> forall fuel bts s s' bad, writes fuel s bts = Some (s', bad) -> bad = false.
  Proof.
    intros O P. induction bts as [|bt rest IH]; intros s s' bad H; [injection H as _ <-; reflexivity|].
    cbn [Net_Model.writes] in H. destruct (write fuel s bt) as [[s1 b1]|] eqn:W; [|discriminate].
    pose proof (write_fine O P _ _ _ _ _ W) as ->. exact (IH _ _ _ H).
  Qed.

  Lemma open_fine : all_open -> wait n e GOpen (fun i => negb (opened e i)) = false.
  Proof. intros O. apply wait_false. right. intros i L. unfold opened. rewrite O by exact L. reflexivity. Qed.

  Lemma blame : forall checksum digest fuel chunks broken t f, all_open -> all_patched ->
    stream_to checksum digest fuel chunks broken = Some (t, f) ->
    (t = Invalid <-> checksum = true /\ (broken = true \/ digest (concat chunks) = false)) /\
    (t = Internal <-> checksum = false /\ broken = true) /\ t <> NotOpened.
  Proof.
    intros checksum digest fuel chunks broken t f O P H. unfold Net_Model.stream_to in H. rewrite (open_fine O) in H.
    destruct (writes fuel (Stream [] 0 (post e)) chunks) as [[s bad]|] eqn:Ws; [|discriminate].
    pose proof (writes_fine O P _ _ _ _ _ Ws) as ->. cbn [orb] in H.
    destruct broken.
    - injection H as <- _. destruct checksum; intuition congruence.
    - destruct checksum; cbn [andb] in H.
      + destruct (digest (concat chunks)) eqn:D; cbn [negb] in H.
        * destruct (Net_Model.commit n row skips e s) as [f0 [|]]; injection H as <- _; intuition congruence.
        * injection H as <- _. intuition congruence.
      + destruct (Net_Model.commit n row skips e s) as [f0 [|]]; injection H as <- _; intuition congruence.
  Qed.

  (** The loop goes the same way if nothing fails. *)
  Lemma write_pure : all_open -> all_patched -> forall fuel bt s p p', inv s p -> pwrite bs row fuel p bt = Some p' ->
    exists s', write fuel s bt = Some (s', false) /\ inv s' p'.
  Proof.
    intros O P. induction fuel as [|f IH]; intros bt s p p' V H.
    - destruct bt; [|discriminate]. injection H as <-. exists s. split; [reflexivity|exact V].
    - destruct bt as [|b bt]; [injection H as <-; exists s; split; [reflexivity|exact V]|].
      cbn [Net_Model.write pwrite] in *. set (l := b :: bt) in *. clearbody l.
      rewrite (v_cache s p V). cbn [s_cache fst] in *.
      set (next := Nat.min (bs - length (fst p)) (length l)) in *.
      assert (inv (Stream (fst p ++ firstn next l) (s_flushed s) (s_files s)) (fst p ++ firstn next l, snd p)) as V1.
      { destruct V as [Vc Vn Vf Vg]. constructor; cbn [s_cache s_flushed s_files fst snd]; [reflexivity|exact Vn|exact Vf|exact Vg]. }
      destruct (bs <=? length (fst p ++ firstn next l)).
      + pose proof (flush_fine O P (Stream (fst p ++ firstn next l) (s_flushed s) (s_files s))) as G.
        destruct (flush (Stream (fst p ++ firstn next l) (s_flushed s) (s_files s))) as [s2 bad] eqn:Fl. cbn in G. subst bad.
        pose proof (flush_inv _ _ _ V1 Fl) as V2. exact (IH _ _ _ _ V2 H).
      + exact (IH _ _ _ _ V1 H).
  Qed.
  Lemma writes_pure : all_open -> all_patched -> forall fuel bts s p p', inv s p -> pwrites bs row fuel p bts = Some p' ->
    exists s', writes fuel s bts = Some (s', false) /\ inv s' p'.
  Proof.
    intros O P. induction bts as [|bt rest IH]; intros s p p' V H.
    - injection H as <-. exists s. split; [reflexivity|exact V].
    - cbn [Net_Model.writes pwrites] in *. destruct (pwrite bs row fuel p bt) as [p1|] eqn:W; [|discriminate].
      destruct (write_pure O P _ _ _ _ _ V W) as (s1 & -> & V1). exact (IH _ _ _ V1 H).
  Qed.

  Lemma success : forall checksum digest fuel chunks, 0 < bs -> (forall i, i < n -> answers e i) ->
    Forall (fun bt => length bt <= fuel) chunks -> concat chunks <> [] -> (checksum = true -> digest (concat chunks) = true) ->
    exists f, stream_to checksum digest fuel chunks false = Some (Stored, f).
  Proof.
    intros checksum digest fuel chunks Hb A F N D.
    assert (all_open) as O by (intros i L; apply A; exact L).
    assert (all_patched) as P by (intros k i L; apply A; exact L).
    destruct (pwrites_end bs row fuel chunks ([], []) Hb F) as (p & W).
    destruct (writes_pure O P _ _ _ _ _ inv_init W) as (s & Ws & V).
    unfold Net_Model.stream_to. rewrite (open_fine O), Ws. cbn [orb].
    assert (checksum && negb (digest (concat chunks)) = false) as ->
      by (destruct checksum; [rewrite D by reflexivity|]; reflexivity).
    unfold Net_Model.commit. pose proof (flush_fine O P s) as G. destruct (flush s) as [s1 b1] eqn:Fl. cbn in G. subst b1.
    pose proof (flush_inv _ _ _ V Fl) as [_ _ Vf _].
    assert (wait n e GCommit (fun i => put_fails skips e i (s_files s1 i)) = false) as ->; [|eexists; reflexivity].
    apply wait_false. right. intros i L. destruct (A i L) as (A1 & A2 & A3).
    assert (opened e i = true) as Oi by (unfold opened; rewrite A1; reflexivity).
    unfold put_fails. rewrite Oi, A3, (Vf i Oi) by (intros; apply A2). cbn.
    pose proof (rows_left bs row fuel chunks p W N) as NE. destruct (snd (pflush row p)); [contradiction NE; reflexivity|reflexivity].
  Qed.

  (** A failed block. *)
  Lemma write_first : forall j, j < n -> sent_fails (ev_patch e 0 j) = true -> ev_lost e (GFlush 0) = false ->
    forall fuel bt s s' bad, s_flushed s = 0 -> length (s_cache s) < bs -> write fuel s bt = Some (s', bad) ->
    bad = true \/ (s_flushed s' = 0 /\ length (s_cache s') = length (s_cache s) + length bt /\ length (s_cache s') < bs).
  Proof.
    intros j Lj Fj Lo. induction fuel as [|f IH]; intros bt s s' bad Z R H.
    - destruct bt; [|discriminate]. injection H as <- <-. right. cbn. lia.
    - destruct bt as [|b bt]; [injection H as <- <-; right; cbn; lia|].
      cbn [Net_Model.write] in H. set (l := b :: bt) in *. clearbody l. cbn [s_cache] in H.
      set (next := Nat.min (bs - length (s_cache s)) (length l)) in *.
      set (s1 := Stream (s_cache s ++ firstn next l) (s_flushed s) (s_files s)) in *.
      destruct (bs <=? length (s_cache s ++ firstn next l)) eqn:E.
      + apply Nat.leb_le in E. unfold Net_Model.flush in H. unfold s1 in H. cbn [s_cache s_flushed] in H.
        destruct (s_cache s ++ firstn next l) as [|x y] eqn:C; [cbn in E; lia|].
        rewrite Z in H.
        assert (wait n e (GFlush 0) (patch_fails e 0) = true) as Wt.
        { apply wait_true. split; [exact Lo|]. exists j. split; [exact Lj|]. unfold patch_fails. rewrite Fj. apply orb_true_r. }
        rewrite Wt in H. injection H as _ <-. left. reflexivity.
      + apply Nat.leb_gt in E. destruct (IH _ s1 _ _ Z E H) as [->|(I1 & I2 & I3)]; [left; reflexivity|right].
        split; [exact I1|]. split; [|exact I3]. rewrite I2. unfold s1. cbn [s_cache].
        rewrite app_length, firstn_length, skipn_length. lia.
  Qed.
  Lemma writes_first : forall j, j < n -> sent_fails (ev_patch e 0 j) = true -> ev_lost e (GFlush 0) = false ->
    forall fuel bts s s' bad, s_flushed s = 0 -> length (s_cache s) < bs -> writes fuel s bts = Some (s', bad) ->
    bs <= length (s_cache s) + length (concat bts) -> bad = true.
  Proof.
    intros j Lj Fj Lo. induction bts as [|bt rest IH]; intros s s' bad Z R H G; [cbn in G; lia|].
    cbn [Net_Model.writes] in H. destruct (write fuel s bt) as [[s1 b1]|] eqn:W; [|discriminate].
    destruct (write_first j Lj Fj Lo _ _ _ _ _ Z R W) as [->|(I1 & I2 & I3)]; [injection H as _ <-; reflexivity|].
    destruct b1; [injection H as _ <-; reflexivity|]. apply (IH s1 s' bad I1 I3 H). cbn in G. rewrite app_length in G. lia.
  Qed.

  Lemma blamed : forall j digest fuel chunks broken t f, 0 < bs -> bs <= length (concat chunks) -> all_open ->
    j < n -> sent_fails (ev_patch e 0 j) = true -> ev_lost e (GFlush 0) = false ->
    stream_to true digest fuel chunks broken = Some (t, f) -> t = Invalid.
  Proof.
    intros j digest fuel chunks broken t f Hb Lc O Lj Fj Lo H. unfold Net_Model.stream_to in H. rewrite (open_fine O) in H.
    destruct (writes fuel (Stream [] 0 (post e)) chunks) as [[s bad]|] eqn:Ws; [|discriminate].
    assert (bad = true) as -> by (eapply (writes_first j Lj Fj Lo); [| |exact Ws|]; cbn; try reflexivity; lia).
    injection H as <- _. reflexivity.
  Qed.
End Net.

(** ** The two kinds of streams *)
Section Rs.
  Context {B : Type}.
  Variables (lib : rs_lib B) (c : rs_config).

  Definition as_encoder (p : @pure B) : encoder B := {| e_cache := fst p; e_sent := snd p |}.

  Lemma pflush_rs : forall p, Rs_Model.flush lib c (as_encoder p) = as_encoder (pflush (encode_row lib c) p).
  Proof. intros [[|b k] r]; reflexivity. Qed.
  Lemma pwrite_rs : forall fuel bt p,
    Rs_Model.write lib c fuel (as_encoder p) bt = option_map as_encoder (pwrite (block_size c) (encode_row lib c) fuel p bt).
  Proof.
    induction fuel as [|f IH]; intros bt p; [destruct bt; reflexivity|].
    destruct bt as [|b bt]; [reflexivity|]. cbn [Rs_Model.write pwrite]. set (l := b :: bt). clearbody l.
    unfold as_encoder at 1 2 3 4. cbn [e_cache e_sent fst].
    rewrite <- IH. f_equal.
    destruct (block_size c <=? length (fst p ++ firstn (Nat.min (block_size c - length (fst p)) (length l)) l)); [|reflexivity].
    rewrite <- pflush_rs. reflexivity.
  Qed.
  Lemma pwrites_rs : forall fuel bts p,
    Rs_Model.writes lib c fuel (as_encoder p) bts = option_map as_encoder (pwrites (block_size c) (encode_row lib c) fuel p bts).
  Proof.
    induction bts as [|bt rest IH]; intros p; [reflexivity|]. cbn [Rs_Model.writes pwrites]. rewrite pwrite_rs.
    destruct (pwrite (block_size c) (encode_row lib c) fuel p bt); [apply IH|reflexivity].
  Qed.
  Lemma upload_rs : forall fuel bts p, pwrites (block_size c) (encode_row lib c) fuel ([], []) bts = Some p ->
    upload lib c fuel bts = Some (snd (pflush (encode_row lib c) p)).
  Proof.
    intros fuel bts p H. unfold upload. pose proof (pwrites_rs fuel bts ([], [])) as E. rewrite H in E. cbn in E.
    unfold as_encoder in E at 1. cbn in E. unfold new_encoder. rewrite E. rewrite pflush_rs. reflexivity.
  Qed.
  Lemma column_rs : forall (sent : list (list (list B))) i, column i sent = shard_blocks sent i.
  Proof. reflexivity. Qed.
End Rs.

Section Copy.
  Context {B : Type}.
  Variables (n bs : nat).

  Definition like (p : @pure B) (q : copier B) : Prop :=
    fst p = c_cache q /\ snd p = map (fun b => repeat b n) (c_sent q).

  Lemma like_flush : forall p q, like p q -> like (pflush (copy_row n) p) (c_flush q).
  Proof.
    intros [c r] [c' r'] [E F]. cbn in E, F. subst c'. unfold pflush, c_flush. cbn [fst snd c_cache c_sent].
    destruct c as [|b c]; [split; [reflexivity|exact F]|]. split; [reflexivity|]. cbn. rewrite map_app, F. reflexivity.
  Qed.
  Lemma like_write : forall fuel bt p q p', like p q -> pwrite bs (copy_row n) fuel p bt = Some p' ->
    exists q', c_write bs fuel q bt = Some q' /\ like p' q'.
  Proof.
    induction fuel as [|f IH]; intros bt p q p' K H.
    - destruct bt; [|discriminate]. injection H as <-. exists q. split; [reflexivity|exact K].
    - destruct bt as [|b bt]; [injection H as <-; exists q; split; [reflexivity|exact K]|].
      cbn [c_write pwrite] in *. set (l := b :: bt) in *. clearbody l. destruct K as [K1 K2]. rewrite <- K1. cbn [c_cache fst] in *.
      set (next := Nat.min (bs - length (fst p)) (length l)) in *.
      destruct (bs <=? length (fst p ++ firstn next l)).
      + eapply IH; [|exact H]. apply like_flush. split; [reflexivity|exact K2].
      + eapply IH; [|exact H]. split; [reflexivity|exact K2].
  Qed.
  Lemma like_writes : forall fuel bts p q p', like p q -> pwrites bs (copy_row n) fuel p bts = Some p' ->
    exists q', c_writes bs fuel q bts = Some q' /\ like p' q'.
  Proof.
    induction bts as [|bt rest IH]; intros p q p' K H.
    - injection H as <-. exists q. split; [reflexivity|exact K].
    - cbn [c_writes pwrites] in *. destruct (pwrite bs (copy_row n) fuel p bt) as [p1|] eqn:W; [|discriminate].
      destruct (like_write _ _ _ _ _ K W) as (q1 & -> & K1). exact (IH _ _ _ K1 H).
  Qed.
  Lemma upload_copy : forall fuel (bts : list (list B)) p, pwrites bs (copy_row n) fuel ([], []) bts = Some p ->
    exists sent, c_upload bs fuel bts = Some sent /\ snd (pflush (copy_row n) p) = map (fun b => repeat b n) sent.
  Proof.
    intros fuel bts p H.
    destruct (like_writes fuel bts ([], []) new_copier p) as (q & Q & K); [split; reflexivity|exact H|].
    exists (c_sent (c_flush q)). unfold c_upload. rewrite Q. split; [reflexivity|]. exact (proj2 (like_flush _ _ K)).
  Qed.
  Lemma column_copy : forall i (sent : list (list B)), i < n -> column i (map (fun b => repeat b n) sent) = sent.
  Proof.
    intros i sent L. unfold column. rewrite map_map. rewrite <- (map_id sent) at 2. apply map_ext. intros b.
    apply nth_error_nth. apply nth_error_repeat. exact L.
  Qed.
End Copy.

(** What the copies are sent is the body. *)
Section Whole.
  Context {B : Type}.
  Variable bs : nat.
  Definition whole (q : copier B) : list B := concat (c_sent q) ++ c_cache q.
  Lemma whole_flush : forall q, whole (c_flush q) = whole q.
  Proof.
    intros [[|b c] r]; [reflexivity|]. unfold whole, c_flush. cbn [c_cache c_sent]. rewrite concat_app. cbn [concat]. rewrite app_nil_r, app_nil_r. reflexivity.
  Qed.
  Lemma whole_write : forall fuel bt (q q' : copier B), c_write bs fuel q bt = Some q' -> whole q' = whole q ++ bt.
  Proof.
    induction fuel as [|f IH]; intros bt q q' H.
    - destruct bt; [|discriminate]. injection H as <-. rewrite app_nil_r. reflexivity.
    - destruct bt as [|b bt]; [injection H as <-; rewrite app_nil_r; reflexivity|].
      cbn [c_write] in H. set (l := b :: bt) in *. clearbody l. cbn [c_cache] in H.
      set (next := Nat.min (bs - length (c_cache q)) (length l)) in *. apply IH in H. rewrite H.
      transitivity ((whole q ++ firstn next l) ++ skipn next l); [|rewrite <- app_assoc, firstn_skipn; reflexivity]. f_equal.
      destruct (bs <=? length (c_cache q ++ firstn next l)); [rewrite whole_flush|]; unfold whole; cbn [c_cache c_sent]; apply app_assoc.
  Qed.
  Lemma whole_writes : forall fuel bts (q q' : copier B), c_writes bs fuel q bts = Some q' -> whole q' = whole q ++ concat bts.
  Proof.
    induction bts as [|bt rest IH]; intros q q' H; [injection H as <-; cbn; rewrite app_nil_r; reflexivity|].
    cbn [c_writes] in H. destruct (c_write bs fuel q bt) as [q1|] eqn:W; [|discriminate].
    apply IH in H. rewrite H, (whole_write _ _ _ _ W). cbn. rewrite app_assoc. reflexivity.
  Qed.
  Lemma whole_upload : forall fuel bts (sent : list (list B)), c_upload bs fuel bts = Some sent -> concat sent = concat bts.
  Proof.
    intros fuel bts sent H. unfold c_upload in H. destruct (c_writes bs fuel new_copier bts) as [q|] eqn:W; [|discriminate].
    injection H as <-. pose proof (whole_writes _ _ _ _ W) as E. cbn in E. rewrite <- E, <- whole_flush. unfold whole.
    assert (c_cache (c_flush q) = []) as -> by (destruct q as [[|b c] r]; reflexivity). rewrite app_nil_r. reflexivity.
  Qed.
End Whole.
