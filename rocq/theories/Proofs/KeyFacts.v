(** Facts about options and authorized_keys lines. *)

From Coq Require Import NArith List Bool Lia Arith String.
From Verif.Base Require Import Bytes.
From Verif.Spec Require Import WireSpec KeySpec.
From Verif.Model Require Import Wire StringList KeyOptions.
From Verif.Proofs Require Import WireFacts.
Import ListNotations.
Open Scope N_scope.

Local Arguments bs : simpl never.

(** ** Options *)

Lemma is_nil_true : forall s, is_nil s = true <-> s = [].
Proof. intros [|c s]; split; intro H; try reflexivity; discriminate. Qed.

Lemma is_nil_false : forall s, is_nil s = false <-> s <> [].
Proof. intros [|c s]; split; intro H; try reflexivity; try discriminate; congruence. Qed.

Lemma is_named_spec : forall names i, is_named names i = true <-> named names i.
Proof.
  intros names i. unfold is_named, named. rewrite existsb_exists. split.
  - intros (x & X & E). apply bytes_eqb_eq in E. now rewrite E.
  - intro H. exists (fst i). split; [exact H|apply bytes_eqb_refl].
Qed.

Lemma existsb_snoc : forall A (f : A -> bool) l x, existsb f (l ++ [x]) = existsb f l || f x.
Proof. intros. rewrite existsb_app. simpl. now rewrite orb_false_r. Qed.

Lemma last_command_snoc : forall l i,
  last_command (l ++ [i]) = if is_named ["command"%string] i then snd i else last_command l.
Proof.
  induction l as [|j l IH]; intro i.
  - reflexivity.
  - cbn [app last_command]. rewrite existsb_snoc, IH.
    destruct (is_named ["command"%string] i); [now rewrite orb_true_r|]. now rewrite orb_false_r.
Qed.

Lemma is_named_app : forall a b i, is_named (a ++ b) i = is_named a i || is_named b i.
Proof. intros. unfold is_named. now rewrite map_app, existsb_app. Qed.

Lemma decided_snoc : forall yes no l i,
  decided yes no (l ++ [i]) =
  if is_named yes i then true else if is_named no i then false else decided yes no l.
Proof.
  intros yes no. induction l as [|j l IH]; intro i.
  - cbn [app decided existsb]. destruct (is_named yes i), (is_named no i); reflexivity.
  - cbn [app decided]. rewrite existsb_snoc, IH, is_named_app.
    destruct (is_named yes i), (is_named no i); cbn [orb];
      rewrite ?orb_true_r, ?orb_false_r; try reflexivity.
Qed.

Definition known_names : list string :=
  ["command"; "port-forwarding"; "no-port-forwarding"; "pty"; "no-pty"; "restrict";
   "home-read-only"; "user-rc"; "no-user-rc"; "agent-forwarding"; "no-agent-forwarding"; "X11-forwarding";
   "no-X11-forwarding"]%string.

(** what one option does *)
Lemma Set_denote : forall l n v,
  (acceptable (n, v) /\ Set_ (denote l) n v = Some (denote (l ++ [(n, v)]))) \/
  (~ acceptable (n, v) /\ forall o, Set_ o n v = None).
Proof.
  intros l n v.
  assert (D : denote (l ++ [(n, v)]) =
    {| ko_command := (if is_named ["command"%string] (n, v) then v else last_command l);
       ko_no_port_forwarding :=
         (if is_named ["no-port-forwarding"; "restrict"]%string (n, v) then true
          else if is_named ["port-forwarding"]%string (n, v) then false
          else ko_no_port_forwarding (denote l));
       ko_no_pty :=
         (if is_named ["no-pty"; "restrict"]%string (n, v) then true
          else if is_named ["pty"]%string (n, v) then false
          else ko_no_pty (denote l));
       ko_home_read_only := ko_home_read_only (denote l) || is_named ["home-read-only"]%string (n, v) |}).
  { unfold denote. rewrite last_command_snoc, !decided_snoc, existsb_snoc. reflexivity. }
  rewrite D. clear D.
  destruct (in_dec bytes_eq_dec n (map bs known_names)) as [W|W].
  - unfold known_names in W. cbn [map In] in W. unfold is_named, acceptable, named, Set_, set_command, set_no_port_forwarding, set_no_pty, set_home_read_only.
    cbn [fst snd].
    repeat (destruct W as [W|W]; [subst n; cbn [map existsb In];
      repeat match goal with |- context [bytes_eqb (bs ?a) (bs ?b)] =>
        let x := eval vm_compute in (bytes_eqb (bs a) (bs b)) in
        change (bytes_eqb (bs a) (bs b)) with x end; cbn [orb negb];
      rewrite ?orb_false_r, ?orb_true_r; destruct v as [|c v]; cbn [is_nil negb];
      first [ left; split; [solve [auto 20 | left; split; [auto 20|discriminate]]
                           | unfold denote; cbn [ko_command ko_no_port_forwarding ko_no_pty ko_home_read_only];
                             rewrite ?orb_false_r, ?orb_true_r; reflexivity]
            | right; split; [|reflexivity];
              intros [[X Y]|[[X Y]|X]]; try congruence;
              repeat (destruct X as [X|X]; [vm_compute in X; discriminate X|]); contradiction ] |]);
    contradiction.
  - right. assert (N : forall k, In k (map bs known_names) -> bytes_eqb n k = false).
    { intros k K. apply bytes_eqb_neq. intro E. subst k. contradiction. }
    split.
    + intros [[X _]|[[X _]|X]]; apply W; unfold named in X; unfold known_names; cbn [fst map In] in *; intuition.
    + intro o. unfold Set_. rewrite !N by (unfold known_names; cbn [map In]; tauto). reflexivity.
Qed.

(** a list of options, one after the other *)
Fixpoint sets (o : key_options) (l : list item) : option key_options :=
  match l with
  | [] => Some o
  | i :: r => match Set_ o (fst i) (snd i) with Some o' => sets o' r | None => None end
  end.

Lemma sets_denote : forall l p,
  (Forall acceptable l /\ sets (denote p) l = Some (denote (p ++ l))) \/
  (~ Forall acceptable l /\ sets (denote p) l = None).
Proof.
  induction l as [|[n v] l IH]; intro p.
  - left. rewrite app_nil_r. split; [constructor|reflexivity].
  - cbn [sets fst snd]. destruct (Set_denote p n v) as [[A E]|[A E]].
    + rewrite E. destruct (IH (p ++ [(n, v)])) as [[B F]|[B F]].
      * left. split; [now constructor|]. rewrite F, <- app_assoc. reflexivity.
      * right. split; [|exact F]. intro H. inversion H; contradiction.
    + right. rewrite E. split; [|reflexivity]. intro H. inversion H; contradiction.
Qed.

Lemma sets_iff : forall l o, sets ko_default l = Some o <-> Forall acceptable l /\ o = denote l.
Proof.
  intros l o. change ko_default with (denote []).
  destruct (sets_denote l []) as [[A E]|[A E]]; rewrite E; cbn [app]; split.
  - intro H. split; [exact A|congruence].
  - intros [_ ->]. reflexivity.
  - discriminate.
  - intros [B _]. contradiction.
Qed.

(** ** The parser *)

Lemma lower_spec : forall c, IsLowerAlphaASCII c = true <-> lower c.
Proof. intro c. unfold IsLowerAlphaASCII, lower. rewrite andb_true_iff, !N.leb_le. reflexivity. Qed.

Lemma middle_spec : forall c, IsOptionNameMiddleChar c = true <-> lower c \/ c = 45.
Proof. intro c. unfold IsOptionNameMiddleChar. rewrite orb_true_iff, lower_spec, N.eqb_eq. reflexivity. Qed.

Lemma name_loop_iff : forall s a b,
  name_loop s = Some (a, b) <->
  s = a ++ b /\ Forall (fun d => lower d \/ d = 45) a /\ exists c r, b = c :: r /\ IsOptionNameMiddleChar c = false.
Proof.
  induction s as [|c s IH]; intros a b; cbn [name_loop].
  - split; [discriminate|]. intros (E & _ & c & r & -> & _). now destruct a.
  - destruct (IsOptionNameMiddleChar c) eqn:M; cbn [negb].
    + split.
      * destruct (name_loop s) as [[a' b']|] eqn:L; [|discriminate]. intro H. injection H as <- <-.
        destruct (proj1 (IH a' b') eq_refl) as (E & F & X). subst s. repeat split; auto.
        constructor; [now apply middle_spec|exact F].
      * intros (E & F & c' & r & -> & X). destruct a as [|d a]; cbn [app] in E.
        { injection E as -> ->. congruence. }
        injection E as -> ->. inversion F; subst.
        assert (L : name_loop (a ++ c' :: r) = Some (a, c' :: r)) by (apply IH; eauto 10). now rewrite L.
    + split.
      * intro H. injection H as <- <-. repeat split; [constructor|eauto].
      * intros (E & F & c' & r & -> & X). destruct a as [|d a]; cbn [app] in E.
        { now rewrite E. }
        injection E as -> ->. inversion F as [|? ? D ?]; subst. apply middle_spec in D. congruence.
Qed.

Lemma ParseOptionName_iff : forall s n b, n <> [] ->
  (ParseOptionName s = (n, b) <->
   s = n ++ b /\ option_name n /\ exists c r, b = c :: r /\ IsOptionNameMiddleChar c = false).
Proof.
  intros s n b N. unfold ParseOptionName. destruct s as [|c s].
  - split; [intro H; congruence|]. intros (E & O & _). destruct n; [contradiction|discriminate].
  - unfold IsOptionNameStartChar. destruct (IsLowerAlphaASCII c) eqn:L; cbn [negb].
    + split.
      * destruct (name_loop s) as [[a' b']|] eqn:P; [|congruence]. intro H. injection H as <- <-.
        apply name_loop_iff in P as (-> & F & X). split; [reflexivity|]. split; [|exact X].
        split; [now apply lower_spec|exact F].
      * intros (E & O & X). destruct n as [|d n]; [contradiction|]. cbn [app] in E. injection E as -> ->.
        destruct O as [_ F]. assert (P : name_loop (n ++ b) = Some (n, b)) by (apply name_loop_iff; auto).
        now rewrite P.
    + split; [congruence|]. intros (E & O & _). destruct n as [|d n]; [contradiction|]. cbn [app] in E.
      injection E as -> ->. destruct O as [O _]. apply lower_spec in O. congruence.
Qed.

Lemma quoted_loop_iff_aux : forall k s v b, (List.length s <= k)%nat ->
  (quoted_loop s = Some (v, b) <-> exists t, quoted v t /\ s = t ++ [34] ++ b).
Proof.
  induction k as [|k IH]; intros s v b K.
  - destruct s; [|cbn in K; lia]. cbn. split; [discriminate|]. intros (t & _ & E). destruct t; discriminate.
  - destruct s as [|c s]; cbn [quoted_loop].
    { split; [discriminate|]. intros (t & _ & E). destruct t; discriminate. }
    cbn [List.length] in K.
    destruct (c =? 34) eqn:C; [apply N.eqb_eq in C; subst c|apply N.eqb_neq in C].
    { split.
      - intro H. injection H as <- <-. exists []. split; [constructor|reflexivity].
      - intros (t & Q & E). inversion Q; subst; cbn [app] in E; try discriminate; injection E; intros; subst; first [reflexivity|congruence]. }
    destruct (c =? 92) eqn:D; [apply N.eqb_eq in D; subst c|apply N.eqb_neq in D].
    { destruct s as [|d s].
      - split; [discriminate|]. intros (t & Q & E). inversion Q; subst; cbn [app] in E; try discriminate.
        all: injection E; intros; subst; try congruence.
      - cbn [List.length] in K. split.
        + destruct (quoted_loop s) as [[v' b']|] eqn:L; [|discriminate]. intro H. injection H as <- <-.
          apply IH in L as (t & Q & ->); [|lia]. exists (92 :: d :: t). split; [now constructor|reflexivity].
        + intros (t & Q & E). inversion Q; subst; cbn [app] in E.
          * discriminate.
          * injection E; intros; subst; congruence.
          * injection E; intros; subst. assert (L : quoted_loop (t0 ++ 34 :: b) = Some (v0, b)) by (apply IH; [lia|eauto]).
            now rewrite L. }
    split.
    + destruct (quoted_loop s) as [[v' b']|] eqn:L; [|discriminate]. intro H. injection H as <- <-.
      apply IH in L as (t & Q & ->); [|lia]. exists (c :: t). split; [now constructor|reflexivity].
    + intros (t & Q & E). inversion Q; subst; cbn [app] in E; try discriminate; injection E; intros; subst; try congruence.
      assert (L : quoted_loop (t0 ++ 34 :: b) = Some (v0, b)) by (apply IH; [lia|eauto]). now rewrite L.
Qed.

Lemma quoted_loop_iff : forall s v b,
  quoted_loop s = Some (v, b) <-> exists t, quoted v t /\ s = t ++ [34] ++ b.
Proof. intros. apply (quoted_loop_iff_aux (List.length s)). lia. Qed.

(** [b] starts with a comma or a space *)
Definition sep (b : bytes) : Prop := exists c r, b = c :: r /\ (c = 44 \/ c = 32).

Lemma plain_loop_iff : forall s v b, sep b ->
  (plain_loop s = (v, b) <-> s = v ++ b /\ Forall (fun c => c <> 44 /\ c <> 32) v).
Proof.
  intros s v b (c & r & -> & C). revert v. induction s as [|d s IH]; intro v; cbn [plain_loop].
  - split; [congruence|]. intros [E _]. destruct v; discriminate.
  - destruct ((d =? 44) || (d =? 32)) eqn:D.
    + apply orb_true_iff in D. rewrite !N.eqb_eq in D. split.
      * intro H. injection H as <- -> ->. split; [reflexivity|constructor].
      * intros [E F]. destruct v as [|x v]; cbn [app] in E; [now rewrite E|].
        injection E as -> ->. inversion F; subst. tauto.
    + apply orb_false_iff in D. rewrite !N.eqb_neq in D. destruct (plain_loop s) as [v' b'] eqn:P. split.
      * intro H. injection H as <- ->. destruct (proj1 (IH v') eq_refl) as [-> F].
        split; [reflexivity|]. now constructor.
      * intros [E F]. destruct v as [|x v]; cbn [app] in E.
        { injection E as -> ->. tauto. }
        injection E as -> ->. inversion F; subst. pose proof (proj2 (IH v) (conj eq_refl H2)) as X. injection X as -> ->. reflexivity.
Qed.

Definition value_of (rest : bytes) : bytes * bytes :=
  match rest with 61 :: r => ParseOptionValue r | _ => ([], rest) end.

Lemma value_of_61 : forall r, value_of (61 :: r) = ParseOptionValue r.
Proof. reflexivity. Qed.

Lemma value_of_other : forall c r, c <> 61 -> value_of (c :: r) = ([], c :: r).
Proof.
  intros c r C. unfold value_of. destruct c as [|p]; [reflexivity|].
  do 6 (destruct p as [p|p|]; try reflexivity). congruence.
Qed.

Lemma value_other : forall s, hd 0 s <> 34 -> ParseOptionValue s = plain_loop s.
Proof.
  intros [|c s] H; [reflexivity|]. cbn [hd] in H. unfold ParseOptionValue. destruct c as [|p]; [reflexivity|].
  do 6 (destruct p as [p|p|]; try reflexivity). congruence.
Qed.

(** one option and what follows it *)
Lemma one_option_iff : forall s n v b, sep b ->
  ((exists rest, ParseOptionName s = (n, rest) /\ n <> [] /\ value_of rest = (v, b)) <->
   exists t, option_text (n, v) t /\ s = t ++ b).
Proof.
  intros s n v b S. split.
  - intros (rest & P & N & V). apply ParseOptionName_iff in P as (-> & O & c & r & -> & M); [|exact N].
    destruct (N.eq_dec c 61) as [->|C].
    + rewrite value_of_61 in V. destruct r as [|d r]; [cbn in V; destruct S as (? & ? & -> & _); discriminate|].
      destruct (N.eq_dec d 34) as [->|D].
      * cbn [ParseOptionValue] in V. destruct (quoted_loop r) as [x|] eqn:Q; [|destruct S as (? & ? & -> & _); discriminate].
        subst x. apply quoted_loop_iff in Q as (t & Q & ->).
        exists (n ++ [61; 34] ++ t ++ [34]). split; [now constructor|]. now rewrite <- !app_assoc.
      * rewrite value_other in V by exact D. apply plain_loop_iff in V as [E F]; [|exact S].
        rewrite E. exists (n ++ [61] ++ v). split; [|now rewrite <- app_assoc].
        constructor; auto. destruct v as [|x v]; cbn [hd]; [lia|]. cbn [app] in E. congruence.
    + rewrite value_of_other in V by exact C. injection V as <- <-. exists n. split; [now constructor|reflexivity].
  - intros (t & T & ->).
    assert (NN : forall n, option_name n -> n <> []) by (intros [|? ?] X; [contradiction|discriminate]).
    assert (M61 : IsOptionNameMiddleChar 61 = false) by reflexivity.
    inversion T; subst.
    + exists b. split; [|split; [auto|]].
      * apply ParseOptionName_iff; auto. split; [reflexivity|]. split; [assumption|].
        destruct S as (c & r & -> & C). exists c, r. split; [reflexivity|]. destruct C as [-> | ->]; reflexivity.
      * destruct S as (c & r & -> & C). apply value_of_other. destruct C as [-> | ->]; discriminate.
    + exists ([61] ++ v ++ b). split; [|split; [auto|]].
      * apply ParseOptionName_iff; auto. rewrite <- !app_assoc. split; [reflexivity|]. split; [assumption|]. cbn [app]. eauto.
      * cbn [app]. rewrite value_of_61, value_other.
        { apply plain_loop_iff; auto. }
        destruct v as [|x v]; [|assumption]. destruct S as (c & r & -> & C). cbn. destruct C as [-> | ->]; discriminate.
    + exists ([61; 34] ++ t0 ++ [34] ++ b). split; [|split; [auto|]].
      * apply ParseOptionName_iff; auto. rewrite <- !app_assoc. split; [reflexivity|]. split; [assumption|]. cbn [app]. eauto.
      * cbn [app]. rewrite value_of_61. cbn [ParseOptionValue].
        assert (Q : quoted_loop (t0 ++ 34 :: b) = Some (v, b)) by (apply quoted_loop_iff; eauto). now rewrite Q.
Qed.

Lemma StripLeft_iff : forall s c r,
  StripLeft s = c :: r <-> exists ws, s = ws ++ c :: r /\ white ws /\ 32 < c.
Proof.
  unfold white. induction s as [|d s IH]; intros c r; cbn [StripLeft].
  - split; [discriminate|]. intros (ws & E & _). destruct ws; discriminate.
  - unfold is_ws. destruct (d <=? 32) eqn:D.
    + apply N.leb_le in D. rewrite IH. split.
      * intros (ws & -> & W & C). exists (d :: ws). repeat split; auto.
      * intros (ws & E & W & C). destruct ws as [|x ws]; cbn [app] in E.
        { injection E as -> ->. lia. }
        injection E as -> ->. inversion W; subst. eauto.
    + apply N.leb_gt in D. split.
      * intro H. injection H as -> ->. exists []. repeat split; auto.
      * intros (ws & E & W & C). destruct ws as [|x ws]; cbn [app] in E; [exact E|].
        injection E as -> ->. inversion W; subst. lia.
Qed.

Lemma option_text_nonempty : forall i t, option_text i t -> t <> [].
Proof. intros i t H. inversion H; subst; match goal with O : option_name ?n |- _ => destruct n; [contradiction|discriminate] end. Qed.

Lemma options_text_nonempty : forall l t, options_text l t -> t <> [].
Proof.
  intros l t H. inversion H; subst.
  - now apply (option_text_nonempty i).
  - apply option_text_nonempty in H0. destruct t0; [congruence|discriminate].
Qed.

Lemma option_text_head : forall i t, option_text i t -> exists d u, t = d :: u /\ lower d.
Proof.
  intros i t H. inversion H; subst;
    match goal with O : option_name ?n |- _ => destruct n as [|d u]; [contradiction|]; destruct O as [L _] end;
    cbn [app]; eauto.
Qed.

Lemma options_text_head : forall l t, options_text l t -> exists d u, t = d :: u /\ lower d.
Proof.
  intros l t H. inversion H as [i t' T|i t' l' u T U]; subst; apply option_text_head in T as (d & u' & -> & L);
    cbn [app]; eauto.
Qed.

Lemma options_loop_unfold : forall k s o, options_loop (S k) s o =
  (let '(name, rest) := ParseOptionName s in
   if is_nil name then ([], o) else
   let '(value, s) := value_of rest in
   match Set_ o name value with
   | None => ([], o)
   | Some o =>
       match s with
       | [] => ([], o)
       | 32 :: r => (StripLeft r, o)
       | 44 :: r => options_loop k r o
       | _ => ([], o)
       end
   end).
Proof. reflexivity. Qed.

Lemma options_loop_iff : forall k s o c r o', (List.length s < k)%nat ->
  (options_loop k s o = (c :: r, o') <->
   exists l t ws, s = t ++ [32] ++ ws ++ c :: r /\ options_text l t /\ white ws /\ 32 < c /\ sets o l = Some o').
Proof.
  induction k as [|k IH]; intros s o c r o' K; [lia|].
  rewrite options_loop_unfold. destruct (ParseOptionName s) as [n rest] eqn:P.
  destruct (is_nil n) eqn:Z.
  { apply is_nil_true in Z. subst n. split; [discriminate|].
    intros (l & t & ws & E & T & _). exfalso. inversion T; subst.
    - destruct i as [n v]. assert (X : exists t', option_text (n, v) t' /\ t ++ [32] ++ ws ++ c :: r = t' ++ ([32] ++ ws ++ c :: r)) by eauto.
      apply one_option_iff in X as (rest' & P' & N & _); [congruence|]. exists 32, (ws ++ c :: r). auto.
    - destruct i as [n v]. rewrite <- !app_assoc in P.
      assert (X : exists t', option_text (n, v) t' /\ t0 ++ [44] ++ u ++ [32] ++ ws ++ c :: r = t' ++ ([44] ++ u ++ [32] ++ ws ++ c :: r)) by eauto.
      apply one_option_iff in X as (rest' & P' & N & _); [congruence|]. exists 44, (u ++ [32] ++ ws ++ c :: r). auto. }
  apply is_nil_false in Z. destruct (value_of rest) as [v b] eqn:V.
  assert (INV : forall l t x, options_text l t -> s = t ++ [32] ++ x ->
     (exists l', l = (n, v) :: l' /\ ((l' = [] /\ b = 32 :: x) \/ exists u, options_text l' u /\ b = 44 :: u ++ [32] ++ x))).
  { intros l t x T E. inversion T; subst.
    - destruct i as [n' v']. assert (X : exists t', option_text (n', v') t' /\ t ++ [32] ++ x = t' ++ ([32] ++ x)) by eauto.
      apply one_option_iff in X as (rest' & P' & N & V'); [|exists 32, x; auto]. cbn [app] in *.
      rewrite P in P'. injection P' as <- <-. rewrite V in V'. injection V' as <- <-. eauto.
    - destruct i as [n' v']. rewrite <- !app_assoc in P.
      assert (X : exists t', option_text (n', v') t' /\ t0 ++ [44] ++ u ++ [32] ++ x = t' ++ ([44] ++ u ++ [32] ++ x)) by eauto.
      apply one_option_iff in X as (rest' & P' & N & V'); [|exists 44, (u ++ [32] ++ x); auto].
      cbn [app] in *. rewrite P in P'. injection P' as <- <-. rewrite V in V'. injection V' as <- ->. eauto 7. }
  destruct (Set_ o n v) as [o1|] eqn:S1.
  2: { split; [discriminate|]. intros (l & t & ws & E & T & _ & _ & F).
       destruct (INV l t _ T E) as (l' & -> & _). cbn [sets fst snd] in F. rewrite S1 in F. discriminate. }
  destruct b as [|d b].
  { split; [discriminate|]. intros (l & t & ws & E & T & _ & _ & F).
    destruct (INV l t _ T E) as (l' & -> & [[_ X]|(u & _ & X)]); discriminate. }
  destruct (N.eq_dec d 32) as [->|D1]; [|destruct (N.eq_dec d 44) as [->|D2]].
  - split.
    + intro H. injection H as H <-. apply StripLeft_iff in H as (ws & -> & W & C).
      assert (X : exists t, option_text (n, v) t /\ s = t ++ 32 :: ws ++ c :: r).
      { apply one_option_iff; [exists 32, (ws ++ c :: r); auto|]. eauto. }
      destruct X as (t & T & ->). exists [(n, v)], t, ws. repeat split; auto.
      * now constructor.
      * cbn [sets fst snd]. now rewrite S1.
    + intros (l & t & ws & E & T & W & C & F). destruct (INV l t _ T E) as (l' & -> & [[-> X]|(u & _ & X)]); [|discriminate].
      injection X as ->. cbn [sets fst snd] in F. rewrite S1 in F. injection F as <-. f_equal.
      apply StripLeft_iff. eauto.
  - assert (LB : (List.length b < k)%nat).
    { apply ParseOptionName_iff in P as (-> & O & c0 & r0 & -> & _); [|exact Z].
      rewrite app_length in K. assert (G : (List.length (44%N :: b) <= List.length (c0 :: r0))%nat).
      { destruct (N.eq_dec c0 61) as [->|C0].
        - rewrite value_of_61 in V. clear - V. destruct r0 as [|x r0]; [discriminate|].
          destruct (N.eq_dec x 34) as [->|X].
          + cbn [ParseOptionValue] in V. destruct (quoted_loop r0) as [q|] eqn:Q; [|discriminate]. subst q.
            apply quoted_loop_iff in Q as (t & _ & ->). cbn [List.length app]. rewrite app_length. cbn [List.length]. lia.
          + rewrite value_other in V by exact X. apply plain_loop_iff in V as [-> _]; [|exists 44, b; auto].
            cbn [List.length]. rewrite app_length. cbn [List.length]. lia.
        - rewrite value_of_other in V by exact C0. injection V as <- -> ->. lia. }
      cbn [List.length] in *. destruct n; [congruence|]. cbn [List.length] in K. lia. }
    rewrite IH by exact LB. split.
    + intros (l & t & ws & E & T & W & C & F).
      assert (X : exists t, option_text (n, v) t /\ s = t ++ 44 :: b).
      { apply one_option_iff; [exists 44, b; auto|]. eauto. }
      destruct X as (t1 & T1 & ->). exists ((n, v) :: l), (t1 ++ [44] ++ t), ws. repeat split; auto.
      * subst b. rewrite <- !app_assoc. reflexivity.
      * now constructor.
      * cbn [sets fst snd]. now rewrite S1.
    + intros (l & t & ws & E & T & W & C & F). destruct (INV l t _ T E) as (l' & -> & [[-> X]|(u & U & X)]); [discriminate|].
      injection X as ->. cbn [sets fst snd] in F. rewrite S1 in F. exists l', u, ws. repeat split; auto.
  - match goal with |- ?m = _ <-> _ => assert (X : m = ([], o1)) end.
    { clear - D1 D2. destruct d as [|p]; [reflexivity|]. do 6 (destruct p as [p|p|]; try reflexivity); congruence. }
    rewrite X. clear X.
    split; [discriminate|]. intros (l & t & ws & E & T & _ & _ & F).
    destruct (INV l t _ T E) as (l' & -> & [[_ Y]|(u & _ & Y)]); injection Y; intros; congruence.
Qed.

Lemma Split_spec : forall s a b, Split s 32 = (a, b) -> no_space a /\ ((b = [] /\ s = a) \/ s = a ++ [32] ++ b).
Proof.
  unfold no_space. induction s as [|c s IH]; intros a b; cbn [Split].
  - intro H. injection H as <- <-. auto.
  - destruct (c =? 32) eqn:C.
    + apply N.eqb_eq in C. subst c. intro H. injection H as <- <-. split; [auto|]. now right.
    + apply N.eqb_neq in C. destruct (Split s 32) as [a' b'] eqn:S. intro H. injection H as <- <-.
      destruct (IH a' b' eq_refl) as [N D]. split.
      * intros [E|I]; [congruence|contradiction].
      * destruct D as [[-> ->]| ->]; [left|right]; auto.
Qed.

Lemma Split_app : forall a b, no_space a -> Split (a ++ [32] ++ b) 32 = (a, b).
Proof.
  unfold no_space. induction a as [|c a IH]; intros b N; cbn [app Split].
  - reflexivity.
  - destruct (c =? 32) eqn:C; [apply N.eqb_eq in C; subst; exfalso; apply N; now left|].
    cbn [app] in IH. rewrite IH; [reflexivity|]. intro I. apply N. now right.
Qed.

Lemma Split_none : forall a, no_space a -> Split a 32 = (a, []).
Proof.
  unfold no_space. induction a as [|c a IH]; intro N; cbn [Split]; [reflexivity|].
  destruct (c =? 32) eqn:C; [apply N.eqb_eq in C; subst; exfalso; apply N; now left|].
  rewrite IH; [reflexivity|]. intro I. apply N. now right.
Qed.

(** the second word *)
Lemma second_word_iff : forall s b64, b64 <> [] ->
  (fst (Split (snd (Split s 32)) 32) = b64 <-> exists ty, key_text ty b64 s).
Proof.
  intros s b64 B. destruct (Split s 32) as [ty rest] eqn:S. cbn [snd]. split.
  - intro F. destruct (Split rest 32) as [w rest2] eqn:S2. cbn [fst] in F. subst w.
    apply Split_spec in S as [N1 [[-> ->]| ->]]; [cbn in S2; congruence|].
    apply Split_spec in S2 as [N2 D]. exists ty. unfold key_text. destruct D as [[-> ->]| ->].
    + exists []. rewrite app_nil_r. repeat split; auto.
    + exists ([32] ++ rest2). repeat split; auto. right. now exists rest2.
  - intros (ty' & tail & -> & N1 & N2 & _ & T). rewrite Split_app in S by exact N1. injection S as <- <-.
    destruct T as [->|(t & ->)].
    + rewrite app_nil_r, Split_none by exact N2. reflexivity.
    + change (32 :: t) with ([32] ++ t). rewrite Split_app by exact N2. reflexivity.
Qed.

Lemma starts_with_iff : forall p s, starts_with s p = true <-> exists r, s = p ++ r.
Proof.
  induction p as [|c p IH]; intro s; cbn [starts_with].
  - split; [intros _; now exists s|]. intros _. destruct s; reflexivity.
  - destruct s as [|d s]; [split; [discriminate|intros (r & X); discriminate]|].
    cbn [starts_with]. rewrite andb_true_iff, N.eqb_eq, IH. split.
    + intros [-> (r & ->)]. now exists r.
    + intros (r & X). cbn [app] in X. injection X as -> ->. eauto.
Qed.

Lemma known_type_iff : forall openssl t, MaybeSupportsKeyType openssl t = true <-> known_type openssl t.
Proof.
  intros openssl t. unfold MaybeSupportsKeyType, known_type. rewrite orb_true_iff, andb_true_iff, !starts_with_iff. reflexivity.
Qed.

(** no acceptable option looks like a key type *)
Lemma option_not_type : forall l t openssl x, options_text l t -> Forall acceptable l ->
  MaybeSupportsKeyType openssl (fst (Split (t ++ x) 32)) = false.
Proof.
  intros l t openssl x T A.
  assert (X : exists n v l', l = (n, v) :: l' /\ exists y, t = n ++ y /\ (y = [] \/ exists c y', y = c :: y' /\ (c = 44 \/ c = 61))).
  { inversion T; subst; match goal with H : option_text ?i _ |- _ => destruct i as [n v]; inversion H; subst end.
    all: eexists _, _, _; split; [reflexivity|]; rewrite <- ?app_assoc; first [exists []; rewrite app_nil_r; split; [reflexivity|now left] | eexists; split; [reflexivity|right; cbn [app]; eexists _, _; split; [reflexivity|auto]]]. }
  destruct X as (n & v & l' & -> & y & -> & _). inversion A as [|? ? B _]; subst.
  assert (K : named known_names (n, v)).
  { unfold acceptable, named in *. unfold known_names. cbn [fst snd map In] in *. intuition. }
  unfold named, known_names in K. cbn [fst map In] in K. rewrite <- app_assoc. clear - K.
  assert (G : forall w, hd 0 w <> 115 -> hd 0 w <> 101 -> MaybeSupportsKeyType openssl w = false).
  { intros w W1 W2. unfold MaybeSupportsKeyType. destruct w as [|c w]; [now destruct openssl|]. cbn [hd] in *.
    change (bs "ssh-") with [115; 115; 104; 45]. change (bs "ecdsa-") with [101; 99; 100; 115; 97; 45].
    cbn [starts_with]. apply N.eqb_neq in W1, W2. rewrite W1, W2. now rewrite andb_false_r. }
  assert (H : forall c r z, c <> 32 -> hd 0 (fst (Split ((c :: r) ++ z) 32)) = c).
  { intros c r z C. cbn [app Split]. apply N.eqb_neq in C. rewrite C. destruct (Split (r ++ z) 32). reflexivity. }
  repeat (destruct K as [<-|K]; [apply G; unfold bs; cbn [list_ascii_of_string map]; rewrite H by discriminate; discriminate|]).
  contradiction.
Qed.

Lemma known_type_head : forall openssl c t, known_type openssl (c :: t) -> c = 115 \/ c = 101.
Proof.
  intros openssl c t [(r & E)|[_ (r & E)]]; [left|right].
  - change (bs "ssh-") with [115; 115; 104; 45] in E. cbn [app] in E. congruence.
  - change (bs "ecdsa-") with [101; 99; 100; 115; 97; 45] in E. cbn [app] in E. congruence.
Qed.

Lemma extract_unfold : forall openssl line c r, StripLeft line = c :: r -> c <> 35 ->
  ExtractPublicKeyBlobFromLine openssl line =
  (let '(key_type, rest) := Split (c :: r) 32 in
   let '(rest, o) :=
     if negb (MaybeSupportsKeyType openssl key_type) then
       let '(line, o) := ParseOptions (c :: r) ko_default in
       (snd (Split line 32), o)
     else (rest, ko_default) in
   (fst (Split rest 32), o)).
Proof.
  intros openssl line c r S C. unfold ExtractPublicKeyBlobFromLine. rewrite S.
  destruct c as [|p]; [reflexivity|]. do 6 (destruct p as [p|p|]; try reflexivity). congruence.
Qed.

Lemma ParseOptions_iff : forall s c r o,
  ParseOptions s ko_default = (c :: r, o) <->
  exists l t ws, s = t ++ [32] ++ ws ++ c :: r /\ options_text l t /\ white ws /\ 32 < c /\ Forall acceptable l /\ o = denote l.
Proof.
  intros s c r o. unfold ParseOptions. rewrite options_loop_iff by lia. split.
  - intros (l & t & ws & E & T & W & C & F). apply sets_iff in F as [A ->]. exists l, t, ws. repeat split; auto.
  - intros (l & t & ws & E & T & W & C & A & ->). exists l, t, ws. repeat split; auto. now apply sets_iff.
Qed.

Theorem extract_iff : forall openssl line b64 o, b64 <> [] ->
  (ExtractPublicKeyBlobFromLine openssl line = (b64, o) <->
   exists l, line_text openssl line b64 l /\ Forall acceptable l /\ o = denote l).
Proof.
  intros openssl line b64 o B. split.
  - intro H. destruct (StripLeft line) as [|c r] eqn:S.
    { unfold ExtractPublicKeyBlobFromLine in H. rewrite S in H. congruence. }
    destruct (N.eq_dec c 35) as [->|C].
    { unfold ExtractPublicKeyBlobFromLine in H. rewrite S in H. congruence. }
    rewrite (extract_unfold openssl line c r S C) in H. apply StripLeft_iff in S as (ws & -> & W & C32).
    pose proof (second_word_iff (c :: r) b64 B) as SW.
    destruct (Split (c :: r) 32) as [ty rest] eqn:SP. cbn [snd] in SW.
    destruct (MaybeSupportsKeyType openssl ty) eqn:K; cbn [negb] in H.
    + injection H as H <-. apply SW in H as (ty' & KT). exists []. repeat split; [|constructor].
      exists ws, (c :: r). repeat split; auto. left. split; [reflexivity|]. exists ty'. split; [exact KT|].
      destruct KT as (tail & E & N1 & _). rewrite E, Split_app in SP by exact N1. injection SP as -> _.
      now apply known_type_iff.
    + destruct (ParseOptions (c :: r) ko_default) as [line' o'] eqn:P. injection H as H <-.
      destruct line' as [|c' r']; [cbn in H; congruence|].
      apply ParseOptions_iff in P as (l & t & ws2 & E & T & W2 & C' & A & ->).
      apply second_word_iff in H as (ty' & KT); [|exact B].
      exists l. repeat split; auto. exists ws, (c :: r). repeat split; auto. right.
      exists t, ws2, ty', c', r'. repeat split; auto.
  - intros (l & (ws & body & -> & W & D) & A & ->).
    destruct D as [[-> (ty & KT & KN)]|(t & ws2 & ty & c & r & -> & T & W2 & C & KT)].
    + assert (NE : ty <> []).
      { destruct KN as [(r & ->)|[_ (r & ->)]]; discriminate. }
      destruct ty as [|c ty]; [congruence|]. pose proof (known_type_head _ _ _ KN) as HD.
      destruct body as [|c' r]; [destruct KT as (? & X & _); discriminate|].
      assert (c' = c) by (destruct KT as (? & X & _); cbn [app] in X; congruence). subst c'.
      assert (S : StripLeft (ws ++ c :: r) = c :: r).
      { apply StripLeft_iff. exists ws. repeat split; auto. destruct HD; subst; lia. }
      rewrite (extract_unfold openssl _ c r S) by (destruct HD; subst; discriminate).
      assert (SW : exists ty, key_text ty b64 (c :: r)) by eauto. apply second_word_iff in SW; [|exact B].
      destruct (Split (c :: r) 32) as [k rest] eqn:SP. cbn [snd] in SW.
      destruct KT as (tail & E & N1 & _). rewrite E, Split_app in SP by exact N1. injection SP as <- _.
      apply known_type_iff in KN. rewrite KN. cbn [negb]. now rewrite SW.
    + destruct (options_text_head _ _ T) as (d & t' & E & LD). subst t. rename t' into t.
      unfold lower in LD. cbn [app].
      assert (S : StripLeft (ws ++ d :: t ++ [32] ++ ws2 ++ c :: r) = d :: t ++ [32] ++ ws2 ++ c :: r).
      { apply StripLeft_iff. exists ws. repeat split; auto. lia. }
      cbn [app] in S. rewrite (extract_unfold openssl _ d _ S) by lia.
      pose proof (option_not_type l (d :: t) openssl ([32] ++ ws2 ++ c :: r) T A) as NT. cbn [app] in NT.
      destruct (Split (d :: t ++ 32 :: ws2 ++ c :: r) 32) as [k rest]. cbn [fst] in NT. rewrite NT. cbn [negb].
      assert (P : ParseOptions (d :: t ++ 32 :: ws2 ++ c :: r) ko_default = (c :: r, denote l)).
      { apply ParseOptions_iff. exists l, (d :: t), ws2. repeat split; auto. }
      rewrite P. assert (SW : exists ty, key_text ty b64 (c :: r)) by eauto.
      apply second_word_iff in SW; [|exact B]. now rewrite SW.
Qed.

(** ** Files *)

Lemma line_contains_iff : forall base64 openssl line blob o,
  PublicKeysTextLineContains base64 openssl line blob = Some o <-> authorizes openssl base64 line blob o.
Proof.
  intros base64 openssl line blob o. unfold PublicKeysTextLineContains, authorizes.
  destruct (ExtractPublicKeyBlobFromLine openssl line) as [b64 o'] eqn:X. split.
  - destruct (is_nil b64) eqn:Z; [discriminate|]. apply is_nil_false in Z.
    destruct (base64 b64) as [b|] eqn:D; [|discriminate].
    destruct (bytes_eqb b blob) eqn:Q; [|discriminate]. apply bytes_eqb_eq in Q. subst b.
    cbn [negb]. intro H. injection H as <-. apply extract_iff in X as (l & T & A & ->); [|exact Z]. eauto 8.
  - intros (b64' & l & T & A & D & ->).
    assert (Z : b64' <> []).
    { destruct T as (ws & body & _ & _ & [[_ (ty & (tail & _ & _ & _ & N & _) & _)]|(t & ws2 & ty & c & r & _ & _ & _ & _ & (tail & _ & _ & _ & N & _))]); exact N. }
    assert (Y : ExtractPublicKeyBlobFromLine openssl line = (b64', denote l)).
    { apply extract_iff; eauto. }
    rewrite X in Y. injection Y as -> ->. apply is_nil_false in Z. rewrite Z, D, bytes_eqb_refl. reflexivity.
Qed.

Lemma lines_contain_iff : forall base64 openssl lines blob o,
  lines_contain base64 openssl lines blob = Some o <->
  exists pre line post, lines = pre ++ line :: post /\ authorizes openssl base64 line blob o /\
    (forall l o', In l pre -> ~ authorizes openssl base64 l blob o').
Proof.
  intros base64 openssl. induction lines as [|l r IH]; intros blob o; cbn [lines_contain].
  - split; [discriminate|]. intros (pre & line & post & E & _). destruct pre; discriminate.
  - destruct (PublicKeysTextLineContains base64 openssl l blob) as [o1|] eqn:L.
    + split.
      * intro H. injection H as <-. exists [], l, r. split; [reflexivity|]. split; [now apply line_contains_iff|].
        intros x o' [].
      * intros (pre & line & post & E & A & N). apply line_contains_iff in L.
        destruct pre as [|p pre]; cbn [app] in E; injection E as <- ->.
        { apply line_contains_iff in L, A. congruence. }
        exfalso. exact (N l o1 (or_introl eq_refl) L).
    + rewrite IH. split.
      * intros (pre & line & post & -> & A & N). exists (l :: pre), line, post. split; [reflexivity|]. split; [exact A|].
        intros x o' [<-|I]; [|now apply N]. intro X. apply line_contains_iff in X. congruence.
      * intros (pre & line & post & E & A & N). destruct pre as [|p pre]; cbn [app] in E; injection E as <- ->.
        { apply line_contains_iff in A. congruence. }
        exists pre, line, post. split; [reflexivity|]. split; [exact A|]. intros x o' I. apply N. now right.
Qed.

Lemma lines_contain_none : forall base64 openssl lines blob,
  lines_contain base64 openssl lines blob = None <->
  (forall l o, In l lines -> ~ authorizes openssl base64 l blob o).
Proof.
  intros base64 openssl lines blob. split.
  - intros H l o I A. induction lines as [|x r IH]; [contradiction|]. cbn [lines_contain] in H.
    destruct (PublicKeysTextLineContains base64 openssl x blob) as [o1|] eqn:L; [discriminate|].
    destruct I as [->|I]; [|auto]. apply line_contains_iff in A. congruence.
  - intro H. destruct (lines_contain base64 openssl lines blob) as [o|] eqn:L; [|reflexivity].
    apply lines_contain_iff in L as (pre & line & post & -> & A & _). exfalso. apply (H line o); auto.
    apply in_or_app. right. now left.
Qed.

(** two readings of the same text agree *)
Lemma options_text_unique : forall l t, options_text l t -> forall l' t' x x',
  options_text l' t' -> t ++ [32] ++ x = t' ++ [32] ++ x' -> l = l'.
Proof.
  assert (ONE : forall i t b i' t' b', option_text i t -> option_text i' t' -> sep b -> sep b' ->
    t ++ b = t' ++ b' -> i = i' /\ b = b').
  { intros [n v] t b [n' v'] t' b' T T' S S' E.
    assert (X : exists u, option_text (n, v) u /\ t ++ b = u ++ b) by eauto.
    assert (Y : exists u, option_text (n', v') u /\ t ++ b = u ++ b') by eauto.
    apply one_option_iff in X as (r & P & _ & V); [|exact S].
    apply one_option_iff in Y as (r' & P' & _ & V'); [|exact S'].
    rewrite P in P'. injection P' as <- <-. rewrite V in V'. injection V' as <- <-. auto. }
  assert (S32 : forall x, sep ([32] ++ x)) by (intro x; exists 32, x; auto).
  assert (S44 : forall x, sep ([44] ++ x)) by (intro x; exists 44, x; auto).
  intros l t T. induction T as [i t T|i t l u T U IH]; intros l' t' x x' T' E; inversion T' as [i' t1 O1|i' t1 l1 u1 O1 U1]; subst;
    rewrite <- ?app_assoc in E.
  - destruct (ONE _ _ _ _ _ _ T O1 (S32 _) (S32 _) E) as [-> _]. reflexivity.
  - destruct (ONE _ _ _ _ _ _ T O1 (S32 _) (S44 _) E) as [-> X]. discriminate.
  - destruct (ONE _ _ _ _ _ _ T O1 (S44 _) (S32 _) E) as [-> X]. discriminate.
  - destruct (ONE _ _ _ _ _ _ T O1 (S44 _) (S44 _) E) as [-> X]. cbn [app] in X. injection X as X.
    f_equal. exact (IH _ _ _ _ U1 X).
Qed.

Lemma bad_options_reject : forall base64 openssl ws l t rest blob o,
  white ws -> options_text l t -> ~ known_type openssl t -> ~ Forall acceptable l ->
  ~ authorizes openssl base64 (ws ++ t ++ [32] ++ rest) blob o.
Proof.
  intros base64 openssl ws l t rest blob o W T K A (b64 & l' & (ws' & body & E & W' & D) & A' & _ & _).
  destruct (options_text_head _ _ T) as (d & t' & -> & LD). unfold lower in LD.
  assert (S : StripLeft (ws ++ (d :: t') ++ [32] ++ rest) = (d :: t') ++ [32] ++ rest).
  { cbn [app]. apply StripLeft_iff. exists ws. repeat split; auto. lia. }
  assert (B : body = (d :: t') ++ [32] ++ rest).
  { rewrite <- S, E. symmetry.
    destruct D as [[_ (ty & KT & KN)]|(t1 & ws2 & ty & c & r & -> & T1 & _)].
    - assert (NE : ty <> []) by (destruct KN as [(r & ->)|[_ (r & ->)]]; discriminate).
      destruct ty as [|c ty]; [congruence|]. pose proof (known_type_head _ _ _ KN) as HD.
      destruct KT as (tail & -> & _). cbn [app]. apply StripLeft_iff. exists ws'. repeat split; auto.
      destruct HD; subst; lia.
    - destruct (options_text_head _ _ T1) as (d1 & u1 & -> & L1). unfold lower in L1. cbn [app].
      apply StripLeft_iff. exists ws'. repeat split; auto. lia. }
  destruct D as [[_ (ty & KT & KN)]|(t1 & ws2 & ty & c & r & E1 & T1 & _)].
  - apply K. destruct KT as (tail & E2 & N1 & _). rewrite B in E2.
    assert (G : forall p, (forall x, In x p -> x <> 32) -> (exists r, ty = p ++ r) -> exists r, d :: t' = p ++ r).
    { intros p P (r & ->).
      rewrite <- !app_assoc in E2. clear - P E2. revert E2. generalize (d :: t') as u.
      assert (H : forall p u z w, (forall x, In x p -> x <> 32) -> u ++ [32] ++ z = p ++ w -> exists r, u = p ++ r).
      { clear. induction p as [|x p IH]; intros u z w P E; [now exists u|].
        destruct u as [|y u]; cbn [app] in E.
        - injection E as <- E. exfalso. apply (P 32); [now left|reflexivity].
        - injection E as -> E. destruct (IH u z w) as (r & ->); [intros; apply P; now right|exact E|]. now exists r. }
      intros u E. exact (H p u rest _ P E). }
    destruct KN as [H|[O H]]; [left|right; split; [exact O|]]; (apply G; [|exact H]);
      intros x X; vm_compute in X; repeat (destruct X as [<-|X]; [discriminate|]); contradiction.
  - rewrite B in E1. rewrite <- (options_text_unique _ _ T _ _ _ _ T1 E1) in A'. contradiction.
Qed.

(** ** The loaded set *)

Lemma Find_app : forall a b k, Find (a ++ b) k = match Find a k with Some o => Some o | None => Find b k end.
Proof.
  induction a as [|[x o] a IH]; intros b k; cbn [app Find]; [reflexivity|].
  destruct (bytes_eqb x k); [reflexivity|apply IH].
Qed.

Lemma Find_Add : forall s b o k,
  Find (Add s b o) k = match Find s k with Some x => Some x | None => if bytes_eqb b k then Some o else None end.
Proof.
  intros s b o k. unfold Add. destruct (Find s b) as [x|] eqn:F.
  - destruct (Find s k) as [y|] eqn:G; [reflexivity|]. destruct (bytes_eqb b k) eqn:Q; [|reflexivity].
    apply bytes_eqb_eq in Q. subst. congruence.
  - rewrite Find_app. reflexivity.
Qed.

Lemma load_lines : forall base64 openssl lines set k,
  Find (fold_left (LoadPublicKeyLine base64 openssl) lines set) k =
  match Find set k with Some o => Some o | None => lines_contain base64 openssl lines k end.
Proof.
  intros base64 openssl. induction lines as [|l r IH]; intros set k; cbn [fold_left lines_contain].
  - destruct (Find set k); reflexivity.
  - rewrite IH. unfold LoadPublicKeyLine, PublicKeysTextLineContains.
    destruct (ExtractPublicKeyBlobFromLine openssl l) as [b64 o]. destruct (is_nil b64); [destruct (Find set k); reflexivity|].
    destruct (base64 b64) as [b|]; [|destruct (Find set k); reflexivity].
    rewrite Find_Add. destruct (Find set k); [reflexivity|]. destruct (bytes_eqb b k); reflexivity.
Qed.

(** ** Restrict *)

Lemma Restrict_conflict : forall a b, conflict a b -> Restrict a b = (a, false).
Proof.
  intros a b (A & B & C). unfold Restrict. apply is_nil_false in A, B. apply bytes_eqb_neq in C.
  rewrite A, B, C. reflexivity.
Qed.

Lemma Restrict_ok : forall a b, ~ conflict a b -> Restrict a b =
  ({| ko_command := if is_nil (ko_command a) then ko_command b else ko_command a;
      ko_no_port_forwarding := ko_no_port_forwarding a || ko_no_port_forwarding b;
      ko_no_pty := ko_no_pty a || ko_no_pty b;
      ko_home_read_only := ko_home_read_only a || ko_home_read_only b |}, true).
Proof.
  intros a b N. unfold Restrict. destruct (is_nil (ko_command b)) eqn:B; cbn [negb].
  - apply is_nil_true in B. destruct (is_nil (ko_command a)) eqn:A; [|reflexivity].
    apply is_nil_true in A. rewrite A, B. reflexivity.
  - destruct (is_nil (ko_command a)) eqn:A; [reflexivity|].
    destruct (bytes_eqb (ko_command a) (ko_command b)) eqn:C; [reflexivity|].
    exfalso. apply N. split; [now apply is_nil_false|]. split; [now apply is_nil_false|now apply bytes_eqb_neq].
Qed.

Lemma conflict_dec : forall a b, conflict a b \/ ~ conflict a b.
Proof.
  intros a b. unfold conflict. destruct (bytes_eq_dec (ko_command a) []); [right; tauto|].
  destruct (bytes_eq_dec (ko_command b) []); [right; tauto|].
  destruct (bytes_eq_dec (ko_command a) (ko_command b)); [right|left]; tauto.
Qed.

Lemma at_least_refl : forall a, at_least a a.
Proof. intro a. unfold at_least. tauto. Qed.

Lemma at_least_trans : forall a b c, at_least a b -> at_least b c -> at_least a c.
Proof.
  intros a b c (A1 & A2 & A3 & A4) (B1 & B2 & B3 & B4). unfold at_least. repeat split; auto.
  intro H. pose proof (B1 H) as E. rewrite <- E. apply A1. now rewrite E.
Qed.

Lemma Restrict_at_least : forall a b, at_least (fst (Restrict a b)) a.
Proof.
  intros a b. destruct (conflict_dec a b) as [C|C].
  - rewrite (Restrict_conflict _ _ C). apply at_least_refl.
  - rewrite (Restrict_ok _ _ C). unfold at_least. cbn. repeat split; try (intros ->; reflexivity).
    intro H. apply is_nil_false in H. now rewrite H.
Qed.

(** ** Lines of a text *)

Lemma split_nonempty : forall sep s, split sep s <> [].
Proof.
  intros sep [|b r]; cbn [split]; [discriminate|]. destruct (b =? sep); [discriminate|].
  destruct (split sep r); discriminate.
Qed.

Lemma unlines_cons : forall l r, r <> [] -> unlines (l :: r) = l ++ [NEWLINE] ++ unlines r.
Proof. intros l [|x r] H; [congruence|reflexivity]. Qed.

Lemma text_lines_split : forall s, text_lines s (split 10 s).
Proof.
  intro s. split; [apply split_nonempty|]. induction s as [|b r [F U]]; cbn [split].
  - split; [repeat constructor; auto|reflexivity].
  - pose proof (split_nonempty 10 r) as N. destruct (b =? 10) eqn:B.
    + apply N.eqb_eq in B. subst b. split; [constructor; auto|]. rewrite unlines_cons by exact N. now rewrite U.
    + apply N.eqb_neq in B. destruct (split 10 r) as [|p l]; [congruence|].
      inversion F as [|? ? P Q]; subst. split.
      * constructor; [|exact Q]. intros [X|X]; [unfold NEWLINE in X; congruence|contradiction].
      * destruct l as [|q l]; reflexivity.
Qed.

Lemma text_lines_unique : forall lines s, text_lines s lines -> split 10 s = lines.
Proof.
  induction lines as [|l r IH]; intros s (N & F & U); [congruence|]. inversion F as [|? ? L R]; subst.
  assert (A : forall l z, ~ In NEWLINE l -> split 10 (l ++ [NEWLINE] ++ z) = l :: split 10 z).
  { clear. induction l as [|b l IH]; intros z L; [reflexivity|]. cbn [app split].
    destruct (b =? 10) eqn:B; [apply N.eqb_eq in B; subst; exfalso; apply L; now left|].
    cbn [app] in IH. rewrite IH by (intro; apply L; now right). reflexivity. }
  destruct r as [|x r].
  - cbn [unlines]. clear - L. induction l as [|b l IH]; [reflexivity|]. cbn [split].
    destruct (b =? 10) eqn:B; [apply N.eqb_eq in B; subst; exfalso; apply L; now left|].
    rewrite IH by (intro; apply L; now right). reflexivity.
  - rewrite unlines_cons by discriminate. rewrite A by exact L. f_equal. apply IH. repeat split; auto. discriminate.
Qed.

(** ** Options requests *)

Lemma options_payload_cons : forall n v l,
  options_payload ((n, v) :: l) = string_enc n ++ string_enc v ++ options_payload l.
Proof. intros. unfold options_payload, enc. cbn [flat_map app map enc_field fst snd List.concat]. reflexivity. Qed.

Lemma len_string_enc : forall s, len (string_enc s) = 4 + len s.
Proof. intro s. unfold string_enc. rewrite len_app, len_be32. reflexivity. Qed.

Lemma bytes_ok_app_r : forall a b, bytes_ok (a ++ b) -> bytes_ok b.
Proof. intros a b H. now apply bytes_ok_app in H. Qed.

Lemma deserialize_sets : forall k d o o', bytes_ok d -> (List.length d <= k)%nat ->
  (deserialize_loop k d o = Some o' <->
   exists l, d = options_payload l /\ Forall (fun i => len (fst i) < pow32 /\ len (snd i) < pow32) l /\ sets o l = Some o').
Proof.
  induction k as [|k IH]; intros d o o' B K.
  - destruct d; [|cbn in K; lia]. cbn [deserialize_loop]. split.
    + intro H. exists []. repeat split; auto.
    + intros (l & E & _ & S). destruct l as [|[n v] l]; [exact S|]. rewrite options_payload_cons in E. discriminate.
  - destruct d as [|x d].
    { cbn [deserialize_loop]. split.
      + intro H. exists []. repeat split; auto.
      + intros (l & E & _ & S). destruct l as [|[n v] l]; [exact S|]. rewrite options_payload_cons in E. discriminate. }
    cbn [deserialize_loop]. set (dd := x :: d) in *. split.
    + unfold obind. destruct (ReadString dd) as [[n d1]|] eqn:R1; [|discriminate].
      destruct (ReadString_inv _ _ _ B R1) as (E1 & L1 & _).
      assert (B1 : bytes_ok d1) by (rewrite E1 in B; exact (bytes_ok_app_r _ _ B)).
      destruct (ReadString d1) as [[v d2]|] eqn:R2; [|discriminate].
      destruct (ReadString_inv _ _ _ B1 R2) as (E2 & L2 & _).
      assert (B2 : bytes_ok d2) by (rewrite E2 in B1; exact (bytes_ok_app_r _ _ B1)).
      destruct (Set_ o n v) as [o1|] eqn:S; [|discriminate]. intro H. apply IH in H as (l & -> & F & SS).
      * exists ((n, v) :: l). split; [|split].
        { rewrite options_payload_cons, E1, E2. reflexivity. }
        { constructor; auto. }
        { cbn [sets fst snd]. now rewrite S. }
      * exact B2.
      * apply (f_equal (@List.length N)) in E1, E2. rewrite app_length in E1, E2.
        unfold string_enc, be32 in E1, E2. rewrite app_length in E1, E2. cbn [List.length] in E1, E2. lia.
    + intros (l & E & F & S). destruct l as [|[n v] l]; [unfold dd in E; discriminate|].
      rewrite options_payload_cons in E. inversion F as [|? ? [L1 L2] F']; subst. cbn [fst snd] in *.
      rewrite E. rewrite ReadString_enc by exact L1. cbn [obind]. rewrite ReadString_enc by exact L2. cbn [obind].
      cbn [sets fst snd] in S. destruct (Set_ o n v) as [o1|] eqn:S1; [|discriminate]. cbn [obind].
      apply IH.
      * rewrite E in B. exact (bytes_ok_app_r _ _ (bytes_ok_app_r _ _ B)).
      * apply (f_equal (@List.length N)) in E. rewrite !app_length in E. unfold string_enc at 1, be32 in E.
        cbn [app List.length] in E. lia.
      * eauto.
Qed.

(** the options of a record, as a list *)
Definition options_list (o : key_options) : list item :=
  (if is_nil (ko_command o) then [] else [(bs "command", ko_command o)]) ++
  (if ko_no_port_forwarding o then [(bs "no-port-forwarding", [])] else []) ++
  (if ko_no_pty o then [(bs "no-pty", [])] else []) ++
  (if ko_home_read_only o then [(bs "home-read-only", [])] else []).

Lemma options_payload_app : forall a b, options_payload (a ++ b) = options_payload a ++ options_payload b.
Proof.
  intros a b. unfold options_payload, enc. rewrite flat_map_app, map_app, List.concat_app. reflexivity.
Qed.

Lemma options_payload_1 : forall n v, options_payload [(n, v)] = string_enc n ++ string_enc v.
Proof. intros. rewrite options_payload_cons. unfold options_payload, enc. cbn. now rewrite app_nil_r. Qed.

Lemma SerializeOption_spec : forall s n v, len s <= BUFFER_SIZE ->
  SerializeOption s n v =
  if len s + len (options_payload [(n, v)]) <=? BUFFER_SIZE then Some (s ++ options_payload [(n, v)]) else None.
Proof.
  intros s n v L. unfold SerializeOption. rewrite options_payload_1, len_app.
  rewrite WriteString_spec by exact L. rewrite !len_string_enc.
  destruct (len s + (4 + len n) <=? BUFFER_SIZE) eqn:A.
  - apply N.leb_le in A. unfold obind.
    rewrite WriteString_spec by (rewrite len_app, len_string_enc; exact A).
    rewrite !len_app, !len_string_enc.
    replace (len s + (4 + len n) + (4 + len v)) with (len s + (4 + len n + (4 + len v))) by lia.
    destruct (len s + (4 + len n + (4 + len v)) <=? BUFFER_SIZE); [|reflexivity]. now rewrite <- app_assoc.
  - apply N.leb_gt in A. cbn [obind]. destruct (len s + (4 + len n + (4 + len v)) <=? BUFFER_SIZE) eqn:B; [|reflexivity].
    apply N.leb_le in B. lia.
Qed.

Definition appends (f : serializer -> option serializer) (p : bytes) : Prop :=
  forall s, len s <= BUFFER_SIZE -> f s = if len s + len p <=? BUFFER_SIZE then Some (s ++ p) else None.

Lemma appends_chain : forall f g p q, appends f p -> appends g q -> appends (fun s => obind (f s) g) (p ++ q).
Proof.
  intros f g p q F G s L. rewrite (F s L), len_app. destruct (len s + len p <=? BUFFER_SIZE) eqn:A.
  - apply N.leb_le in A. cbn [obind]. rewrite G by (rewrite len_app; exact A). rewrite len_app, <- app_assoc, N.add_assoc.
    reflexivity.
  - apply N.leb_gt in A. cbn [obind]. destruct (len s + (len p + len q) <=? BUFFER_SIZE) eqn:B; [|reflexivity].
    apply N.leb_le in B. lia.
Qed.

Lemma appends_if : forall (b : bool) n v,
  appends (fun s => if b then SerializeOption s n v else Some s) (options_payload (if b then [(n, v)] else [])).
Proof.
  intros b n v s L. destruct b; [exact (SerializeOption_spec s n v L)|].
  change (options_payload []) with (@nil N). rewrite len_nil, N.add_0_r, app_nil_r. apply N.leb_le in L. now rewrite L.
Qed.

Lemma Serialize_spec : forall s o, len s <= BUFFER_SIZE ->
  SerializeAuthorizedKeyOptions s o =
  if len s + len (options_payload (options_list o)) <=? BUFFER_SIZE
  then Some (s ++ options_payload (options_list o)) else None.
Proof.
  intros s o. revert s. change (appends (fun s => SerializeAuthorizedKeyOptions s o) (options_payload (options_list o))).
  unfold SerializeAuthorizedKeyOptions, options_list. rewrite !options_payload_app.
  apply appends_chain.
  { intros s L. rewrite (appends_if (negb (is_nil (ko_command o))) (bs "command") (ko_command o) s L).
    destruct (is_nil (ko_command o)); reflexivity. }
  apply appends_chain; [apply appends_if|]. apply appends_chain; apply appends_if.
Qed.

Lemma options_list_ok : forall o, Forall acceptable (options_list o) /\ denote (options_list o) = o.
Proof.
  intros [c f p h]. unfold options_list. cbn [ko_command ko_no_port_forwarding ko_no_pty ko_home_read_only]. split.
  - rewrite !Forall_app. repeat split.
    + destruct c; constructor; [|constructor]. left. split; [now left|discriminate].
    + destruct f; constructor; [|constructor]. right; left. split; [unfold named; cbn; auto|reflexivity].
    + destruct p; constructor; [|constructor]. right; left. split; [unfold named; cbn; auto 6|reflexivity].
    + destruct h; constructor; [|constructor]. right; right. unfold named; cbn; auto.
  - destruct c as [|x c], f, p, h; reflexivity.
Qed.
