(** Lemmas about names in URLs. *)
From Coq Require Import Ascii String List Bool.
From Verif Require Import Str_Model Str_Proofs Path_Model Url_Model Url_Spec.
Import ListNotations.
Local Open Scope list_scope.

(** ** Characters *)

Lemma all_chars : forall P : ascii -> bool,
  forallb (fun b7 => forallb (fun b6 => forallb (fun b5 => forallb (fun b4 => forallb (fun b3 => forallb (fun b2 => forallb (fun b1 => forallb (fun b0 =>
    P (Ascii b0 b1 b2 b3 b4 b5 b6 b7)) [false; true]) [false; true]) [false; true]) [false; true]) [false; true]) [false; true]) [false; true]) [false; true] = true ->
  forall c, P c = true.
Proof.
  intros P H [b0 b1 b2 b3 b4 b5 b6 b7].
  assert (forall (f : bool -> bool) b, forallb f [false; true] = true -> f b = true) as G.
  { intros f b F. cbn in F. destruct (f false) eqn:F0, (f true) eqn:F1; try discriminate F. destruct b; assumption. }
  apply (G _ b7) in H. apply (G _ b6) in H. apply (G _ b5) in H. apply (G _ b4) in H.
  apply (G _ b3) in H. apply (G _ b2) in H. apply (G _ b1) in H. apply (G _ b0) in H. exact H.
Qed.

Ltac chars := apply all_chars; vm_compute; reflexivity.

Lemma eqb_char : forall a b, Ascii.eqb a b = true <-> a = b.
Proof. intros a b. apply Ascii.eqb_eq. Qed.
Lemma neqb_char : forall a b, Ascii.eqb a b = false <-> a <> b.
Proof. intros a b. apply Ascii.eqb_neq. Qed.

Lemma imp_char : forall (P Q : ascii -> bool), (forall c, implb (P c) (Q c) = true) -> forall c, P c = true -> Q c = true.
Proof. intros P Q H c E. specialize (H c). rewrite E in H. exact H. Qed.

Lemma hexd_unhex : forall a b c d, unhex (hexd a b c d) = Some (a, b, c, d).
Proof. intros [] [] [] []; reflexivity. Qed.

(** Characters not escaped in a path are neither [%] nor control characters. *)
Lemma kept_path : forall c, should_escape EPath c = false -> c <> "%"%char /\ c <> "#"%char /\ c <> "?"%char /\ ctl c = false.
Proof.
  intros c H.
  assert (implb (negb (should_escape EPath c)) (negb (Ascii.eqb c "%") && negb (Ascii.eqb c "#") && negb (Ascii.eqb c "?") && negb (ctl c)) = true) as K.
  { revert c H. intros c _. revert c. chars. }
  rewrite H in K. cbn [negb implb] in K. apply andb_true_iff in K as [K K4]. apply andb_true_iff in K as [K K3]. apply andb_true_iff in K as [K1 K2].
  repeat split; try (apply neqb_char, negb_true_iff; assumption). apply negb_true_iff, K4.
Qed.
Lemma kept_segment : forall c, should_escape ESegment c = false -> should_escape EPath c = false /\ c <> "/"%char /\ c <> ","%char /\ c <> ";"%char.
Proof.
  intros c H.
  assert (implb (negb (should_escape ESegment c)) (negb (should_escape EPath c) && negb (Ascii.eqb c "/") && negb (Ascii.eqb c ",") && negb (Ascii.eqb c ";")) = true) as K.
  { revert c H. intros c _. revert c. chars. }
  rewrite H in K. cbn [negb implb] in K. apply andb_true_iff in K as [K K4]. apply andb_true_iff in K as [K K3]. apply andb_true_iff in K as [K1 K2].
  repeat split; try (apply neqb_char, negb_true_iff; assumption). apply negb_true_iff, K1.
Qed.

(** Characters of an escaped byte. *)
Lemma hexd_plain : forall a b c d, ctl (hexd a b c d) = false /\ hexd a b c d <> "#"%char /\ hexd a b c d <> "?"%char /\ hexd a b c d <> "/"%char /\
  hexd a b c d <> "+"%char /\ should_escape EPath (hexd a b c d) = false.
Proof. intros [] [] [] []; vm_compute; repeat split; discriminate. Qed.

(** ** Meaning of an element *)

Lemma means_unescape : forall t n, means t n -> unescape EPath t = Some n.
Proof.
  induction 1 as [|h l b7 b6 b5 b4 b3 b2 b1 b0 t n H1 H2 M IH|c t n N M IH]; [reflexivity|..].
  - cbn [unescape]. cbn [Ascii.eqb Bool.eqb]. rewrite H1, H2, IH. reflexivity.
  - cbn [unescape]. apply neqb_char in N. rewrite N, IH. reflexivity.
Qed.

Lemma unescape_means : forall k t n, List.length t <= k -> unescape EPath t = Some n -> means t n.
Proof.
  induction k as [|k IH]; intros t n L H.
  - destruct t; [|cbn in L; inversion L]. injection H as <-. constructor.
  - destruct t as [|c t]; [injection H as <-; constructor|]. cbn [unescape] in H. cbn in L. apply le_S_n in L.
    destruct (Ascii.eqb c "%") eqn:E.
    + apply eqb_char in E. subst c. destruct t as [|h [|l t]]; try discriminate H.
      destruct (unhex h) as [[[[b7 b6] b5] b4]|] eqn:H1; [|discriminate H].
      destruct (unhex l) as [[[[b3 b2] b1] b0]|] eqn:H2; [|discriminate H].
      destruct (unescape EPath t) as [n'|] eqn:U; [|discriminate H]. injection H as <-.
      econstructor; [exact H1|exact H2|]. apply IH; [|exact U]. cbn in L. eapply PeanoNat.Nat.le_trans; [|exact L]. do 2 apply le_S. constructor.
    + apply neqb_char in E. destruct (unescape EPath t) as [n'|] eqn:U; [|discriminate H]. injection H as <-. constructor; [exact E|]. apply IH; assumption.
Qed.

(** ** Escaping and unescaping *)

Lemma unescape_segment : forall k t, List.length t <= k -> unescape ESegment t = unescape EPath t.
Proof.
  induction k as [|k IH]; intros t L; [destruct t; [reflexivity|cbn in L; inversion L]|].
  destruct t as [|c t]; [reflexivity|]. cbn [unescape]. cbn in L. apply le_S_n in L. destruct (Ascii.eqb c "%").
  - destruct t as [|h [|l t]]; try reflexivity. rewrite IH; [reflexivity|]. cbn in L. eapply PeanoNat.Nat.le_trans; [|exact L]. do 2 apply le_S. constructor.
  - rewrite IH by exact L. reflexivity.
Qed.

Lemma unescape_pre : forall m a b, ~ In "%"%char a -> (m = EQuery -> ~ In "+"%char a) ->
  unescape m (a ++ b) = match unescape m b with Some n => Some (a ++ n) | None => None end.
Proof.
  intros m a b. induction a as [|c a IH]; intros N P; [cbn; destruct (unescape m b); reflexivity|].
  cbn [app unescape]. assert (c <> "%"%char) as E by (intros ->; apply N; left; reflexivity). apply neqb_char in E. rewrite E.
  rewrite IH; [|intros I; apply N; right; exact I|intros Q I; apply (P Q); right; exact I].
  destruct (unescape m b); [|reflexivity]. destruct m; try reflexivity.
  assert (c <> "+"%char) as E2 by (intros ->; apply (P eq_refl); left; reflexivity). apply neqb_char in E2. rewrite E2. reflexivity.
Qed.

Lemma unescape_own : forall m a, ~ In "%"%char a -> (m = EQuery -> ~ In "+"%char a) -> unescape m a = Some a.
Proof. intros m a N P. rewrite <- (app_nil_r a) at 1. rewrite unescape_pre by assumption. cbn. rewrite app_nil_r. reflexivity. Qed.

Lemma unescape_byte : forall m c r, unescape m (match c with Ascii b0 b1 b2 b3 b4 b5 b6 b7 => ["%"%char; hexd b7 b6 b5 b4; hexd b3 b2 b1 b0] end ++ r) =
  match unescape m r with Some n => Some (c :: n) | None => None end.
Proof. intros m [b0 b1 b2 b3 b4 b5 b6 b7] r. cbn [app unescape Ascii.eqb Bool.eqb]. rewrite !hexd_unhex. reflexivity. Qed.

Lemma unescape_escape_path : forall m s, m <> EQuery -> unescape EPath (escape m s) = Some s.
Proof.
  intros m s M. induction s as [|c s IH]; [reflexivity|]. unfold escape in *. cbn [flat_map].
  assert (escape1 m c = if should_escape m c then match c with Ascii b0 b1 b2 b3 b4 b5 b6 b7 => ["%"%char; hexd b7 b6 b5 b4; hexd b3 b2 b1 b0] end else [c]) as ->.
  { unfold escape1. destruct m; [reflexivity|reflexivity|contradiction]. }
  destruct (should_escape m c) eqn:E.
  - rewrite unescape_byte, IH. reflexivity.
  - cbn [app unescape]. assert (c <> "%"%char) as N.
    { destruct m; [apply kept_path, E| |contradiction]. apply kept_segment in E as [E _]. apply kept_path, E. }
    apply neqb_char in N. rewrite N, IH. reflexivity.
Qed.

Lemma escape_cons : forall m c s, escape m (c :: s) = escape1 m c ++ escape m s.
Proof. reflexivity. Qed.
Lemma escape_app : forall m a b, escape m (a ++ b) = escape m a ++ escape m b.
Proof. intros m a b. unfold escape. apply flat_map_app. Qed.
Lemma escape1_kept : forall m c, m <> EQuery -> should_escape m c = false -> escape1 m c = [c].
Proof. intros m c M E. unfold escape1. rewrite E. destruct m; [reflexivity|reflexivity|contradiction]. Qed.

Lemma escape_own : forall m s, m <> EQuery -> (forall c, In c s -> should_escape m c = false) -> escape m s = s.
Proof.
  intros m s M. induction s as [|c s IH]; intros H; [reflexivity|]. rewrite escape_cons, escape1_kept; [|exact M|apply H; left; reflexivity].
  cbn. f_equal. apply IH. intros x I. apply H. right. exact I.
Qed.

(** Characters of an escaped text. *)
Lemma escaped_chars : forall m s c, m <> EQuery -> In c (escape m s) ->
  ctl c = false /\ c <> "#"%char /\ c <> "?"%char /\ (c = "%"%char \/ should_escape EPath c = false) /\ (m = ESegment -> c <> "/"%char).
Proof.
  intros m s c M I. unfold escape in I. apply in_flat_map in I as (x & _ & I). unfold escape1 in I.
  replace (match m with EQuery => Ascii.eqb x " " | _ => false end) with false in I by (destruct m; [reflexivity|reflexivity|contradiction]).
  destruct (should_escape m x) eqn:E.
  - destruct x as [b0 b1 b2 b3 b4 b5 b6 b7]. destruct I as [<-|[<-|[<-|[]]]].
    + repeat split; try discriminate. left. reflexivity.
    + destruct (hexd_plain b7 b6 b5 b4) as (H1 & H2 & H3 & H4 & H5 & H6). repeat split; try assumption. right. exact H6. intros _. exact H4.
    + destruct (hexd_plain b3 b2 b1 b0) as (H1 & H2 & H3 & H4 & H5 & H6). repeat split; try assumption. right. exact H6. intros _. exact H4.
  - destruct I as [<-|[]]. assert (should_escape EPath x = false) as EP by (destruct m; [exact E|apply kept_segment, E|contradiction]).
    destruct (kept_path x EP) as (H1 & H2 & H3 & H4). repeat split; try assumption; [right; exact EP|]. intros ->. apply kept_segment in E as (_ & Q & _). exact Q.
Qed.

Lemma escaped_ctl : forall m s, m <> EQuery -> existsb ctl (escape m s) = false.
Proof.
  intros m s M. apply not_true_is_false. intros E. apply existsb_exists in E as (c & I & C). apply (escaped_chars m s c M) in I as [I _]. congruence.
Qed.

Lemma escaped_valid : forall m s, m <> EQuery -> valid_encoded (escape m s) = true.
Proof.
  intros m s M. apply forallb_forall. intros c I. apply (escaped_chars m s c M) in I as (_ & _ & _ & [->|E] & _); [reflexivity|]. rewrite E. apply orb_true_r.
Qed.

(** The two ways of escaping agree on names without [,], [;], [/]. *)
Definition simple (s : str) : bool := negb (existsb (fun c => isc c ",;/") s).

Lemma escape1_len : forall m c, m <> EQuery -> escape1 m c = [c] \/ (exists a b, escape1 m c = ["%"%char; a; b]).
Proof.
  intros m c M. unfold escape1. replace (match m with EQuery => Ascii.eqb c " " | _ => false end) with false by (destruct m; [reflexivity|reflexivity|contradiction]).
  destruct (should_escape m c); [right|left; reflexivity]. destruct c as [b0 b1 b2 b3 b4 b5 b6 b7]. do 2 eexists. reflexivity.
Qed.

Lemma segment_same : forall c, isc c ",;/" = false -> escape1 ESegment c = escape1 EPath c.
Proof.
  intros c H. assert (should_escape ESegment c = should_escape EPath c) as E.
  { assert (forall c, isc c ",;/" || Bool.eqb (should_escape ESegment c) (should_escape EPath c) = true) as K by chars.
    specialize (K c). rewrite H in K. apply Bool.eqb_prop, K. }
  unfold escape1. rewrite E. reflexivity.
Qed.
Lemma segment_other : forall c, isc c ",;/" = true -> escape1 EPath c = [c] /\ exists a b, escape1 ESegment c = ["%"%char; a; b].
Proof.
  intros c H. cbn in H. rewrite !orb_false_r in H. repeat apply orb_true_iff in H as [H|H]; apply eqb_char in H; subst c; (split; [reflexivity|do 2 eexists; reflexivity]) || idtac.
Qed.

Lemma escape_agree : forall s, escape ESegment s = escape EPath s <-> simple s = true.
Proof.
  intros s. unfold simple. rewrite negb_true_iff. induction s as [|c s IH]; [split; reflexivity|].
  rewrite !escape_cons. cbn [existsb]. destruct (isc c ",;/") eqn:E; cbn [orb].
  - destruct (segment_other c E) as (E1 & a & b & E2). rewrite E1, E2. split; [|discriminate].
    cbn [app]. intros Q. injection Q as Q _. subst c. discriminate E.
  - rewrite (segment_same c E). split.
    + intros Q. apply app_inv_head in Q. apply IH, Q.
    + intros Q. f_equal. apply IH, Q.
Qed.

(** ** Requests *)

Lemma strip_app : forall p s, strip p (p ++ s) = Some s.
Proof. induction p as [|c p IH]; intros s; cbn; [destruct s; reflexivity|]. destruct (ascii_dec c c); [apply IH|contradiction]. Qed.

(** A route: begins with a slash, nothing to be escaped. *)
Definition plain_route (r : str) : Prop := (exists r', r = "/"%char :: r') /\ forall c, In c r -> should_escape EPath c = false.

Lemma route_pct : forall r, plain_route r -> ~ In "%"%char r.
Proof. intros r [_ P] I. apply P in I. discriminate I. Qed.
Lemma route_escape : forall r, plain_route r -> escape EPath r = r.
Proof. intros r [_ P]. apply escape_own; [discriminate|exact P]. Qed.
Lemma route_ctl : forall r, plain_route r -> existsb ctl r = false.
Proof.
  intros r [_ P]. apply not_true_is_false. intros E. apply existsb_exists in E as (c & I & C). apply P in I. apply kept_path in I. destruct I as (_ & _ & _ & I). congruence.
Qed.
Lemma route_notin : forall r c, plain_route r -> should_escape EPath c = true -> ~ In c r.
Proof. intros r c [_ P] E I. apply P in I. congruence. Qed.

Lemma plain_check : forall r, match r with c :: _ => Ascii.eqb c "/" | [] => false end && forallb (fun c => negb (should_escape EPath c)) r = true -> plain_route r.
Proof.
  intros r H. apply andb_true_iff in H as [H1 H2]. split.
  - destruct r as [|c r]; [discriminate H1|]. apply eqb_char in H1. subst c. exists r. reflexivity.
  - intros c I. rewrite forallb_forall in H2. apply negb_true_iff, H2, I.
Qed.

Lemma set_path_route : forall r t n, plain_route r -> means t n ->
  set_path (r ++ t) = Some (mk_upath (r ++ n) (if str_eqb (escape EPath n) t then [] else r ++ t)).
Proof.
  intros r t n R M. unfold set_path. rewrite unescape_pre; [|apply route_pct, R|discriminate]. rewrite (means_unescape t n M).
  rewrite escape_app, (route_escape r R). f_equal. f_equal.
  destruct (str_eqb (escape EPath n) t) eqn:E.
  - apply str_eqb_eq in E. rewrite E, str_eqb_refl. reflexivity.
  - destruct (str_eqb (r ++ escape EPath n) (r ++ t)) eqn:E2; [|reflexivity]. apply str_eqb_eq in E2. apply app_inv_head in E2. rewrite E2, str_eqb_refl in E. discriminate E.
Qed.

Lemma means_nonempty : forall t n, means t n -> t <> [] -> n <> [].
Proof. intros t n M N. destruct M; [contradiction|discriminate|discriminate]. Qed.

Lemma str_eqb_false : forall a b, a <> b -> str_eqb a b = false.
Proof. intros a b N. destruct (str_eqb_spec a b); [contradiction|reflexivity]. Qed.

Lemma slash_escape : forall n, In "/"%char n -> In "/"%char (escape EPath n).
Proof. intros n I. unfold escape. apply in_flat_map. exists "/"%char. split; [exact I|left; reflexivity]. Qed.

Lemma no_slash : forall v, ~ In "/"%char v -> existsb (Ascii.eqb "/"%char) v = false.
Proof. intros v N. apply not_true_is_false. intros E. apply existsb_exists in E as (c & I & C). apply eqb_char in C. subst c. contradiction. Qed.

Lemma param_exact : forall u r t n, plain_route r -> element t -> means t n ->
  param u r (r ++ t) = SName (if str_eqb (escape EPath n) t then n
                              else if u then match unescape EQuery t with Some w => w | None => t end else t).
Proof.
  intros u r t n R (NE & NS & NC) M. unfold param, parse_request. rewrite existsb_app, (route_ctl r R), NC. cbn [orb].
  rewrite (set_path_route r t n R M). cbn [u_path u_raw].
  destruct (str_eqb (escape EPath n) t) eqn:E.
  - apply str_eqb_eq in E. rewrite str_eqb_refl. cbn [negb]. rewrite strip_app.
    rewrite (str_eqb_false n []) by (eapply means_nonempty; eassumption). rewrite (no_slash n); [reflexivity|].
    intros I. apply NS. rewrite <- E. apply slash_escape, I.
  - destruct R as [[r' ->] R']. rewrite (str_eqb_false (("/"%char :: r') ++ t) []) by discriminate. cbn [negb]. rewrite strip_app.
    rewrite (str_eqb_false t []) by exact NE. rewrite (no_slash t NS). cbn [orb andb]. reflexivity.
Qed.

(** ** Clients *)

Lemma cut_before : forall sep a, ~ In sep a -> before sep a = a /\ after sep a = [].
Proof. intros sep a N. unfold before, after. rewrite (cut_on_none sep a N). split; reflexivity. Qed.
Lemma cut_before_app : forall sep a b, ~ In sep a -> before sep (a ++ sep :: b) = a /\ after sep (a ++ sep :: b) = b.
Proof. intros sep a b N. unfold before, after. rewrite (cut_on_app sep a b N). split; reflexivity. Qed.

Lemma escaped_path_valid : forall p u, set_path p = Some u -> valid_encoded p = true -> (exists p', p = "/"%char :: p') -> escaped_path u = p.
Proof.
  intros p u S V [p' ->]. unfold set_path in S. destruct (unescape EPath ("/"%char :: p')) as [q|] eqn:U; [|discriminate S].
  assert (exists q', q = "/"%char :: q') as [q' ->].
  { change ("/"%char :: p') with (["/"%char] ++ p') in U. rewrite unescape_pre in U; [|intros [I|[]]; discriminate I|discriminate].
    destruct (unescape EPath p') as [q'|]; [|discriminate U]. injection U as <-. exists q'. reflexivity. }
  match type of S with Some ?x = Some u => assert (u = x) as -> by congruence end; clear S. unfold escaped_path. cbn [u_raw u_path]. destruct (str_eqb (escape EPath ("/"%char :: q')) ("/"%char :: p')) eqn:E.
  - rewrite str_eqb_refl. cbn [negb andb]. rewrite (str_eqb_false ("/"%char :: q') (s2l "*"%string)) by (cbn; discriminate). apply str_eqb_eq, E.
  - rewrite (str_eqb_false ("/"%char :: p') []) by discriminate. rewrite V, U, str_eqb_refl. reflexivity.
Qed.

Lemma escaped_path_cases : forall p u q, set_path p = Some u -> u_path u = "/"%char :: q -> escaped_path u = p \/ escaped_path u = escape EPath (u_path u).
Proof.
  intros p u q S Q. unfold set_path in S. destruct (unescape EPath p) as [x|] eqn:U; [|discriminate S]. match type of S with Some ?x = Some u => assert (u = x) as -> by congruence end; clear S. cbn [u_path] in *. subst x.
  unfold escaped_path. cbn [u_raw u_path]. destruct (str_eqb (escape EPath ("/"%char :: q)) p) eqn:E.
  - right. cbn [negb str_eqb]. rewrite str_eqb_refl. cbn [negb andb]. rewrite (str_eqb_false ("/"%char :: q) (s2l "*"%string)) by (cbn; discriminate). reflexivity.
  - destruct (_ && _); [left; reflexivity|right]. rewrite (str_eqb_false ("/"%char :: q) (s2l "*"%string)) by (cbn; discriminate). reflexivity.
Qed.

(** A name as it stands in the text of a URL, with what follows. *)
Lemma means_own : forall n, ~ In "%"%char n -> means n n.
Proof.
  induction n as [|c n IH]; intros N; constructor; [intros ->; apply N; left; reflexivity|]. apply IH. intros I. apply N. right. exact I.
Qed.

Lemma means_escape : forall m n, m <> EQuery -> means (escape m n) n.
Proof. intros m n M. apply (unescape_means (List.length (escape m n))); [constructor|apply unescape_escape_path, M]. Qed.

Lemma escape_nonempty : forall m n, m <> EQuery -> n <> [] -> escape m n <> [].
Proof. intros m n M N E. destruct n as [|c n]; [contradiction|]. rewrite escape_cons in E. destruct (escape1_len m c M) as [Q|(a & b & Q)]; rewrite Q in E; discriminate E. Qed.

Lemma escape_slash : forall n, ~ In "/"%char n -> ~ In "/"%char (escape EPath n).
Proof.
  intros n N I. unfold escape in I. apply in_flat_map in I as (c & I & J). unfold escape1 in J. destruct (should_escape EPath c).
  - destruct c as [b0 b1 b2 b3 b4 b5 b6 b7]. destruct J as [J|[J|[J|[]]]]; [discriminate J| |]; apply hexd_plain in J; exact J.
  - destruct J as [->|[]]. contradiction.
Qed.

Definition good_name (n : str) : Prop := n <> [] /\ existsb (fun c => isc c "%?#/" || ctl c) n = false.

Lemma good_notin : forall n c, good_name n -> isc c "%?#/" = true -> ~ In c n.
Proof.
  intros n c [_ G] E I. assert (existsb (fun c => isc c "%?#/" || ctl c) n = true) as Q; [|congruence]. apply existsb_exists. exists c. split; [exact I|]. rewrite E. reflexivity.
Qed.
Lemma good_ctl : forall n, good_name n -> existsb ctl n = false.
Proof.
  intros n [_ G]. apply not_true_is_false. intros E. apply existsb_exists in E as (c & I & C).
  assert (existsb (fun c => isc c "%?#/" || ctl c) n = true) as Q; [|congruence]. apply existsb_exists. exists c. split; [exact I|]. rewrite C. apply orb_true_r.
Qed.

(** What the server sees of an element however the client sends it on. *)
Lemma resent : forall r t n u, plain_route r -> element t -> means t n -> ~ In "/"%char n -> (t = n \/ t = escape EPath n) ->
  set_path (r ++ t) = Some u -> api_param r (escaped_path u) = SName n.
Proof.
  intros r t n u R EL M NS C S. pose proof (set_path_route r t n R M) as S'. rewrite S' in S. pose proof R as [[r' E] _].
  assert (u_path u = r ++ n) as UP by (injection S as <-; reflexivity).
  destruct (escaped_path_cases (r ++ t) u (r' ++ n)) as [Q|Q]; [rewrite S'; exact S|rewrite UP, E; reflexivity|..]; rewrite Q.
  - unfold api_param. rewrite (param_exact false r t n R EL M). destruct (str_eqb (escape EPath n) t) eqn:X; [reflexivity|]. destruct C as [ -> | -> ]; [reflexivity|]. rewrite str_eqb_refl in X. discriminate X.
  - rewrite UP, escape_app, (route_escape r R). unfold api_param. rewrite (param_exact false r (escape EPath n) n R).
    + rewrite str_eqb_refl. reflexivity.
    + split; [|split].
      * apply escape_nonempty; [discriminate|]. eapply means_nonempty; [exact M|apply EL].
      * apply escape_slash, NS.
      * apply escaped_ctl. discriminate.
    + apply means_escape. discriminate.
Qed.

Lemma good_element : forall n, good_name n -> element n.
Proof. intros n G. split; [apply G|]. split; [apply (good_notin n _ G); reflexivity|apply good_ctl, G]. Qed.

Lemma reach_plain : forall r n, plain_route r -> good_name n -> reach r (r ++ n) = RSeen (SName n) [].
Proof.
  intros r n R G. unfold reach, sent, parse_url.
  assert (~ In "#"%char (r ++ n)) as N1.
  { intros I. apply in_app_or in I as [I|I]; [exact (route_notin r "#"%char R eq_refl I)|exact (good_notin n "#"%char G eq_refl I)]. }
  assert (~ In "?"%char (r ++ n)) as N2.
  { intros I. apply in_app_or in I as [I|I]; [exact (route_notin r "?"%char R eq_refl I)|exact (good_notin n "?"%char G eq_refl I)]. }
  destruct (cut_before "#"%char (r ++ n) N1) as [-> ->]. destruct (cut_before "?"%char (r ++ n) N2) as [-> ->].
  rewrite existsb_app, (route_ctl r R), (good_ctl n G). cbn [orb unescape].
  pose proof (means_own n (good_notin n "%"%char G eq_refl)) as M.
  rewrite (set_path_route r n n R M). f_equal.
  eapply (resent r n n); [exact R|apply good_element, G|exact M|apply (good_notin n "/"%char G eq_refl)|left; reflexivity|]. apply set_path_route; assumption.
Qed.

(** With a question mark. *)
Lemma reach_query : forall r n q, plain_route r -> good_name n -> ~ In "#"%char q -> existsb ctl q = false ->
  reach r (r ++ n ++ "?"%char :: q) = RSeen (SName n) q.
Proof.
  intros r n q R G H C. unfold reach, sent, parse_url.
  assert (~ In "#"%char (r ++ n ++ "?"%char :: q)) as N1.
  { intros I. apply in_app_or in I as [I|I]; [exact (route_notin r "#"%char R eq_refl I)|]. apply in_app_or in I as [I|I]; [exact (good_notin n "#"%char G eq_refl I)|].
    destruct I as [I|I]; [discriminate I|contradiction]. }
  destruct (cut_before "#"%char _ N1) as [-> ->].
  assert (~ In "?"%char (r ++ n)) as N2.
  { intros I. apply in_app_or in I as [I|I]; [exact (route_notin r "?"%char R eq_refl I)|exact (good_notin n "?"%char G eq_refl I)]. }
  rewrite app_assoc. destruct (cut_before_app "?"%char (r ++ n) q N2) as [-> ->].
  rewrite !existsb_app. cbn [existsb]. rewrite (route_ctl r R), (good_ctl n G), C. cbn [orb unescape]. change (ctl "?") with false. cbn [orb].
  pose proof (means_own n (good_notin n "%"%char G eq_refl)) as M.
  rewrite (set_path_route r n n R M). f_equal.
  eapply (resent r n n); [exact R|apply good_element, G|exact M|apply (good_notin n "/"%char G eq_refl)|left; reflexivity|]. apply set_path_route; assumption.
Qed.

(** With a hash. *)
Lemma reach_hash : forall r n f x, plain_route r -> good_name n -> unescape EPath f = Some x ->
  reach r (r ++ n ++ "#"%char :: f) = RSeen (SName n) [].
Proof.
  intros r n f x R G U. pose proof (reach_plain r n R G) as P. unfold reach, sent, parse_url in *.
  assert (~ In "#"%char (r ++ n)) as N1.
  { intros I. apply in_app_or in I as [I|I]; [exact (route_notin r "#"%char R eq_refl I)|exact (good_notin n "#"%char G eq_refl I)]. }
  rewrite app_assoc. destruct (cut_before_app "#"%char (r ++ n) f N1) as [-> ->]. rewrite U.
  destruct (cut_before "#"%char (r ++ n) N1) as [E1 E2]. rewrite E1, E2 in P. cbn [unescape] in P. exact P.
Qed.

(** A name that reads like an escaped one. *)
Lemma reach_escaped : forall r n q, plain_route r -> n <> [] -> ~ In "/"%char n -> ~ In "#"%char q -> existsb ctl q = false ->
  reach r (r ++ escape EPath n ++ "?"%char :: q) = RSeen (SName n) q.
Proof.
  intros r n q R NE NS H C. unfold reach, sent, parse_url.
  assert (forall c, In c (escape EPath n) -> ctl c = false /\ c <> "#"%char /\ c <> "?"%char) as EC.
  { intros c I. apply (escaped_chars EPath n c) in I; [|discriminate]. tauto. }
  assert (~ In "#"%char (r ++ escape EPath n ++ "?"%char :: q)) as N1.
  { intros I. apply in_app_or in I as [I|I]; [exact (route_notin r "#"%char R eq_refl I)|]. apply in_app_or in I as [I|I]; [apply EC in I; destruct I as (_ & I & _); contradiction|].
    destruct I as [I|I]; [discriminate I|contradiction]. }
  destruct (cut_before "#"%char _ N1) as [-> ->].
  assert (~ In "?"%char (r ++ escape EPath n)) as N2.
  { intros I. apply in_app_or in I as [I|I]; [exact (route_notin r "?"%char R eq_refl I)|apply EC in I; destruct I as (_ & _ & I); contradiction]. }
  rewrite app_assoc. destruct (cut_before_app "?"%char (r ++ escape EPath n) q N2) as [-> ->].
  rewrite !existsb_app. cbn [existsb]. rewrite (route_ctl r R), (escaped_ctl EPath n), C by discriminate. change (ctl "?") with false. cbn [orb unescape].
  assert (means (escape EPath n) n) as M by (apply means_escape; discriminate).
  rewrite (set_path_route r (escape EPath n) n R M). f_equal.
  eapply (resent r (escape EPath n) n); [exact R| |exact M|exact NS|right; reflexivity|].
  - split; [apply escape_nonempty; [discriminate|exact NE]|]. split; [apply escape_slash, NS|apply escaped_ctl; discriminate].
  - apply set_path_route; assumption.
Qed.

(** A name escaped as one element. *)
Lemma sent_segment : forall r n, plain_route r -> sent (r ++ escape ESegment n) = Some (r ++ escape ESegment n, []).
Proof.
  intros r n R. unfold sent, parse_url.
  assert (forall c, In c (escape ESegment n) -> ctl c = false /\ c <> "#"%char /\ c <> "?"%char) as EC.
  { intros c I. apply (escaped_chars ESegment n c) in I; [|discriminate]. tauto. }
  assert (~ In "#"%char (r ++ escape ESegment n)) as N1.
  { intros I. apply in_app_or in I as [I|I]; [exact (route_notin r "#"%char R eq_refl I)|apply EC in I; destruct I as (_ & I & _); contradiction]. }
  assert (~ In "?"%char (r ++ escape ESegment n)) as N2.
  { intros I. apply in_app_or in I as [I|I]; [exact (route_notin r "?"%char R eq_refl I)|apply EC in I; destruct I as (_ & _ & I); contradiction]. }
  destruct (cut_before "#"%char _ N1) as [-> ->]. destruct (cut_before "?"%char _ N2) as [-> ->].
  rewrite existsb_app, (route_ctl r R), (escaped_ctl ESegment n) by discriminate. cbn [orb unescape].
  assert (means (escape ESegment n) n) as M by (apply means_escape; discriminate).
  pose proof (set_path_route r (escape ESegment n) n R M) as S. destruct (set_path (r ++ escape ESegment n)) as [u|] eqn:SP; [|discriminate S].
  f_equal. f_equal. apply escaped_path_valid; [exact SP| |].
  - unfold valid_encoded. rewrite forallb_app. fold (valid_encoded (escape ESegment n)). rewrite (escaped_valid ESegment n) by discriminate. rewrite andb_true_r.
    apply forallb_forall. intros c I. destruct R as [_ R]. rewrite (R c I). apply orb_true_r.
  - destruct R as [[r' ->] _]. eexists. reflexivity.
Qed.

Lemma segment_element : forall n, n <> [] -> element (escape ESegment n).
Proof.
  intros n NE. split; [apply escape_nonempty; [discriminate|exact NE]|]. split; [|apply escaped_ctl; discriminate].
  intros I. apply (escaped_chars ESegment n) in I; [|discriminate]. destruct I as (_ & _ & _ & _ & I). apply I; reflexivity.
Qed.

Lemma seen_segment : forall r n, plain_route r -> n <> [] ->
  api_param r (r ++ escape ESegment n) = SName (if simple n then n else escape ESegment n).
Proof.
  intros r n R NE. unfold api_param. rewrite (param_exact false r _ n R (segment_element n NE)); [|apply means_escape; discriminate]. f_equal.
  destruct (simple n) eqn:SN.
  - apply escape_agree in SN. rewrite SN, str_eqb_refl. reflexivity.
  - rewrite str_eqb_false; [reflexivity|]. intros Q. symmetry in Q. apply escape_agree in Q. congruence.
Qed.

(** Unescaping as a query: a plus is a space. *)
Definition plus_space (s : str) : str := map (fun c => if Ascii.eqb c "+" then " "%char else c) s.

Lemma query_segment : forall n, unescape EQuery (escape ESegment n) = Some (plus_space n).
Proof.
  induction n as [|c n IH]; [reflexivity|]. rewrite escape_cons. unfold escape1. destruct (should_escape ESegment c) eqn:E.
  - rewrite unescape_byte, IH. cbn [plus_space map]. destruct (Ascii.eqb c "+") eqn:P; [|reflexivity]. apply eqb_char in P. subst c. discriminate E.
  - apply kept_segment in E as [E _]. apply kept_path in E as [E _]. apply neqb_char in E. cbn [app unescape]. rewrite E, IH. reflexivity.
Qed.

Lemma query_no_plus : forall k t, List.length t <= k -> ~ In "+"%char t -> unescape EQuery t = unescape EPath t.
Proof.
  induction k as [|k IH]; intros t L N; [destruct t; [reflexivity|cbn in L; inversion L]|].
  destruct t as [|c t]; [reflexivity|]. cbn [unescape]. cbn in L. apply le_S_n in L.
  assert (c <> "+"%char) as NC by (intros ->; apply N; left; reflexivity). apply neqb_char in NC.
  destruct (Ascii.eqb c "%").
  - destruct t as [|h [|l t]]; try reflexivity. rewrite IH; [reflexivity| |].
    + cbn in L. eapply PeanoNat.Nat.le_trans; [|exact L]. do 2 apply le_S. constructor.
    + intros I. apply N. do 3 right. exact I.
  - rewrite IH; [|exact L|intros I; apply N; right; exact I]. rewrite NC. reflexivity.
Qed.

Lemma plus_space_own : forall n, ~ In "+"%char n -> plus_space n = n.
Proof.
  induction n as [|c n IH]; intros N; [reflexivity|]. cbn. assert (c <> "+"%char) as E by (intros ->; apply N; left; reflexivity). apply neqb_char in E. rewrite E. f_equal. apply IH. intros I. apply N. right. exact I.
Qed.
Lemma plus_space_not : forall n, In "+"%char n -> plus_space n <> n.
Proof.
  intros n I E. assert (In "+"%char (plus_space n)) as J by (rewrite E; exact I). unfold plus_space in J. apply in_map_iff in J as (c & Q & _).
  destruct (Ascii.eqb c "+") eqn:P; [discriminate Q|]. subst c. discriminate P.
Qed.

(** An escaped element has no comma, semicolon or slash. *)
Lemma segment_simple : forall n, simple (escape ESegment n) = true.
Proof.
  intros n. unfold simple. apply negb_true_iff, not_true_is_false. intros E. apply existsb_exists in E as (c & I & C).
  unfold escape in I. apply in_flat_map in I as (x & _ & I). unfold escape1 in I. destruct (should_escape ESegment x) eqn:S.
  - destruct x as [b0 b1 b2 b3 b4 b5 b6 b7].
    assert (forall a b c d, isc (hexd a b c d) ",;/" = false) as K by (intros [] [] [] []; reflexivity).
    destruct I as [<-|[<-|[<-|[]]]]; [discriminate C|rewrite K in C; discriminate C|rewrite K in C; discriminate C].
  - destruct I as [<-|[]]. apply kept_segment in S as (_ & N1 & N2 & N3). cbn in C.
    apply neqb_char in N1, N2, N3. rewrite N1, N2, N3 in C. discriminate C.
Qed.
