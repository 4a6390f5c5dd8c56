(** Facts about the client of the translation server (C72). *)

From Coq Require Import NArith List Bool Lia String.
From Verif.Base Require Import Bytes.
From Verif.Spec Require Import TranslateSpec.
From Verif.Model Require Import TranslateClient.
Import ListNotations.
Open Scope N_scope.

Local Arguments take : simpl never.
Local Arguments drop : simpl never.

(** ** Packets *)

Lemma tpackets_app : forall a b, tpackets_bytes (a ++ b) = tpackets_bytes a ++ tpackets_bytes b.
Proof. intros. unfold tpackets_bytes. now rewrite map_app, concat_app. Qed.

Lemma tpackets_cons : forall p ps, tpackets_bytes (p :: ps) = tpacket_bytes p ++ tpackets_bytes ps.
Proof. reflexivity. Qed.

Lemma tpackets_one : forall p, tpackets_bytes [p] = tpacket_bytes p.
Proof. intros. unfold tpackets_bytes. cbn [map List.concat]. apply app_nil_r. Qed.

Lemma div256 : forall n, n < 65536 -> n / 256 < 256.
Proof. intros. apply N.div_lt_upper_bound; lia. Qed.

Lemma tpacket_split : forall p q t u, tpacket_ok p -> tpacket_ok q ->
  tpacket_bytes p ++ t = tpacket_bytes q ++ u -> p = q /\ t = u.
Proof.
  intros [c p] [d q] t u (A1 & A2 & _) (B1 & B2 & _) E. cbn [fst snd] in *. unfold tpacket_bytes in E. cbn [fst snd app] in E.
  injection E as E1 E2 E3 E4 E5.
  assert (L : len p = len q) by (rewrite (N.div_mod (len p) 256), (N.div_mod (len q) 256) by discriminate; congruence).
  assert (C : c = d) by (rewrite (N.div_mod c 256), (N.div_mod d 256) by discriminate; congruence).
  destruct (app_inj_len _ _ _ _ _ L E5) as [-> ->]. now rewrite C.
Qed.

Lemma tpacket_nonempty : forall p, tpacket_bytes p <> [].
Proof. intros [c p] E. discriminate. Qed.

(** Two sequences of packets at the start of the same bytes: one continues the
    other. *)
Lemma tpackets_split : forall ps qs t u, Forall tpacket_ok ps -> Forall tpacket_ok qs ->
  tpackets_bytes ps ++ t = tpackets_bytes qs ++ u ->
  (exists ks, qs = ps ++ ks /\ t = tpackets_bytes ks ++ u) \/ (exists ks, ps = qs ++ ks /\ u = tpackets_bytes ks ++ t).
Proof.
  induction ps as [|p ps IH]; intros qs t u P Q E; [left; exists qs; now split|].
  destruct qs as [|q qs]; [right; exists (p :: ps); now split|].
  inversion P; subst. inversion Q; subst. rewrite !tpackets_cons, <- !app_assoc in E.
  destruct (tpacket_split p q _ _ ltac:(assumption) ltac:(assumption) E) as [-> E'].
  destruct (IH qs t u) as [(ks & -> & ->)|(ks & -> & ->)]; try assumption; [left|right]; exists ks; now split.
Qed.

Lemma carries_inj : forall raw ps qs, carries raw ps -> carries raw qs -> ps = qs.
Proof.
  intros raw ps qs [P E] [Q E']. rewrite E in E'. rewrite <- (app_nil_r (tpackets_bytes ps)), <- (app_nil_r (tpackets_bytes qs)) in E'.
  destruct (tpackets_split ps qs [] [] P Q E') as [(ks & -> & K)|(ks & -> & K)]; rewrite app_nil_r in K;
    (destruct ks as [|k ks]; [now rewrite app_nil_r|destruct k; discriminate]).
Qed.

Lemma builds_app : forall R (h : N -> bytes -> R -> option R) a b r,
  builds h (a ++ b) r = match builds h a r with Some r' => builds h b r' | None => None end.
Proof. induction a as [|[c p] a IH]; intros; [reflexivity|]. cbn [app builds]. destruct (h c p r); [apply IH|reflexivity]. Qed.

(** ** The reader *)

Definition header (c n : N) : bytes := [n mod 256; n / 256; c mod 256; c / 256].

(** The bytes of the packet which is being read *)
Definition unread (rd : reader) (buffer : bytes) : bytes :=
  match rd with RPayload c n have => header c n ++ have ++ buffer | _ => buffer end.

Definition reader_ok (rd : reader) : Prop :=
  match rd with RPayload c n have => c < 65536 /\ n < 65536 /\ len have < n /\ bytes_ok have | _ => True end.

Definition fresh (rd : reader) : Prop := match rd with RPayload _ _ _ => False | _ => True end.

Lemma un_le16_ok : forall a b, a < 256 -> b < 256 -> un_le16 a b < 65536 /\ un_le16 a b mod 256 = a /\ un_le16 a b / 256 = b.
Proof.
  intros a b A B. unfold un_le16. repeat split; [lia| |].
  - rewrite N.mul_comm, N.mod_add by discriminate. now apply N.mod_small.
  - rewrite N.mul_comm, N.div_add by discriminate. rewrite N.div_small by exact A. lia.
Qed.

Lemma header_un : forall a b c d, a < 256 -> b < 256 -> c < 256 -> d < 256 -> header (un_le16 c d) (un_le16 a b) = [a; b; c; d].
Proof.
  intros a b c d A B C D. unfold header. destruct (un_le16_ok a b A B) as (_ & -> & ->). destruct (un_le16_ok c d C D) as (_ & -> & ->). reflexivity.
Qed.

Definition fed (rd : reader) (src rest : bytes) (rd' : reader) : Prop :=
  (rest = src /\ len src < 4 /\ fresh rd /\ rd' = RHeader) \/
  (len rest < len src /\
     ((exists c n have, rd' = RPayload c n have /\ rest = [] /\ reader_ok rd' /\ unread rd src = unread rd' []) \/
      (exists c p, rd' = RComplete c p /\ tpacket_ok (c, p) /\ unread rd src = tpacket_bytes (c, p) ++ rest))).

(** the part of Feed() which takes the payload *)
Lemma feed_payload : forall c n have src, c < 65536 -> n < 65536 -> len have < n -> bytes_ok have -> bytes_ok src ->
  let k := N.min (len src) (n - len have) in
  let have' := have ++ take k src in
  let rd' := if len have' =? n then RComplete c have' else RPayload c n have' in
  (exists have', rd' = RPayload c n have' /\ drop k src = [] /\ reader_ok rd' /\ header c n ++ have ++ src = unread rd' []) \/
  (exists p, rd' = RComplete c p /\ tpacket_ok (c, p) /\ header c n ++ have ++ src = tpacket_bytes (c, p) ++ drop k src).
Proof.
  intros c n have src C N L OH OS k have' rd'.
  assert (LK : len (take k src) = k) by (apply len_take; unfold k; lia).
  assert (LH : len have' = len have + k) by (unfold have'; rewrite len_app; lia).
  destruct (N.eqb_spec (len have') n) as [E|E]; subst rd'.
  - right. exists have'. split; [reflexivity|]. split.
    + repeat split; cbn [fst snd]; [exact C|lia|]. unfold have'. apply bytes_ok_app. split; [exact OH|now apply bytes_ok_take].
    + unfold tpacket_bytes, header. cbn [fst snd]. rewrite E. unfold have'. cbn [app]. do 4 f_equal. rewrite <- app_assoc, take_drop. reflexivity.
  - left. assert (K : k = len src) by lia.
    assert (D : drop k src = []) by (rewrite K; apply drop_all).
    assert (T : take k src = src) by (rewrite K; apply take_all).
    exists have'. split; [reflexivity|]. split; [exact D|]. split.
    + repeat split; try assumption; try lia. apply bytes_ok_app. split; [exact OH|now apply bytes_ok_take].
    + cbn [unread]. unfold have'. now rewrite T, app_nil_r.
Qed.

Lemma Feed_fed : forall src rd rest rd', reader_ok rd -> bytes_ok src -> src <> [] -> Feed src rd = (rest, rd') -> fed rd src rest rd'.
Proof.
  intros src rd rest rd' OK OS NE F.
  assert (FR : fresh rd -> unread rd src = src -> fed rd src rest rd').
  { intros FR U. assert (F' : Feed src RHeader = (rest, rd')) by (destruct rd; [exact F|contradiction|exact F]). clear F. unfold Feed in F'.
    destruct src as [|a [|b [|c [|d src]]]]; [contradiction| | | |]; try (injection F' as <- <-; left; repeat split; now try exact FR).
    right. repeat (inversion OS as [|? ? ? OS']; subst; clear OS; rename OS' into OS).
    destruct (un_le16_ok a b) as (S & _); try assumption. destruct (un_le16_ok c d) as (S' & _); try assumption.
    destruct (N.eqb_spec (un_le16 a b) 0) as [Z|Z].
    - injection F' as <- <-. split; [rewrite !len_cons; lia|]. right. exists (un_le16 c d), []. split; [reflexivity|]. split; [split; [exact S'|]; split; [cbn; lia|apply Forall_nil]|].
      rewrite U. change (a :: b :: c :: d :: src) with ([a; b; c; d] ++ src). rewrite <- (header_un a b c d) by assumption. rewrite Z. reflexivity.
    - destruct src as [|e src].
      + injection F' as <- <-. split; [rewrite !len_cons; lia|]. left. exists (un_le16 c d), (un_le16 a b), []. repeat split; try assumption; try (cbn; lia).
        rewrite U. cbn [unread]. now rewrite header_un by assumption.
      + remember (e :: src) as src1 eqn:ES. cbv zeta in F'.
        pose proof (feed_payload (un_le16 c d) (un_le16 a b) [] src1 S' S) as P. cbn [len List.length N.of_nat] in P.
        specialize (P ltac:(cbn; lia) ltac:(constructor) OS). cbn [app] in P, F'. cbv zeta in P.
        change (len (@nil N)) with 0 in F'.
        injection F' as <- <-. split.
        { rewrite len_drop. rewrite !len_cons. subst src1. rewrite len_cons. lia. }
        replace (unread rd (a :: b :: c :: d :: src1)) with (header (un_le16 c d) (un_le16 a b) ++ src1)
          by (rewrite U, header_un by assumption; reflexivity).
        destruct P as [(h' & E1 & E2 & E3 & E4)|(p & E1 & E2 & E3)].
        * left. exists (un_le16 c d), (un_le16 a b), h'. repeat split; assumption.
        * right. exists (un_le16 c d), p. split; [exact E1|]; split; [exact E2|exact E3]. }
  destruct rd as [|c n have|c p]; [now apply FR| |now apply FR]. clear FR.
  destruct OK as (C & N & L & OH). right. cbn [Feed] in F. cbv zeta in F. injection F as <- <-.
  split; [rewrite len_drop; destruct src; [contradiction|rewrite len_cons; lia]|].
  cbn [unread]. destruct (feed_payload c n have src C N L OH OS) as [(h' & E1 & E2 & E3 & E4)|(p & E1 & E2 & E3)]; cbv zeta in *.
  - left. exists c, n, h'. repeat split; assumption.
  - right. exists c, p. split; [exact E1|]; split; [exact E2|exact E3].
Qed.

Section Receive.
Variable code : tcommand -> N.
Variable response : Type.
Variable handle : N -> bytes -> response -> option response.

Notation loop := (consume_loop code response handle).
Notation run := (recv_run code response handle).

(** What the inner loop does with the bytes it has: *)
Definition not_end (ps : list tpacket) : Prop := forall p, In p ps -> fst p <> code TEND.

Definition settled (rd : reader) (buffer : bytes) : Prop :=
  reader_ok rd /\ match rd with RPayload _ _ _ => buffer = [] | _ => len buffer < 4 end.

Definition consumed (raw : bytes) (r : response) (s : receiving response) : Prop :=
  exists ps, Forall tpacket_ok ps /\ not_end ps /\
  match s with
  | Waiting rd b r' => settled rd b /\ raw = tpackets_bytes ps ++ unread rd b /\ builds handle ps r = Some r'
  | Returned r' => exists e, tpacket_ok (code TEND, e) /\ raw = tpackets_bytes (ps ++ [(code TEND, e)]) /\ builds handle ps r = Some r'
  | Failed => exists r', builds handle ps r = Some r' /\ exists q rest, tpacket_ok q /\ raw = tpackets_bytes (ps ++ [q]) ++ rest /\
      (fst q = code TEND /\ rest <> [] \/ fst q <> code TEND /\ handle (fst q) (snd q) r' = None)
  end.

Lemma consumed_more : forall c p raw r r' s, tpacket_ok (c, p) -> c <> code TEND -> handle c p r = Some r' ->
  consumed raw r' s -> consumed (tpacket_bytes (c, p) ++ raw) r s.
Proof.
  intros c p raw r r' s OK NE H (ps & F & NO & K). exists ((c, p) :: ps). split; [now constructor|]. split.
  { intros q [<-|I]; [exact NE|now apply NO]. }
  destruct s as [rd b r1|r1|].
  - destruct K as (S & -> & B). repeat split; try apply S; [now rewrite tpackets_cons, app_assoc|]. cbn [builds]. now rewrite H.
  - destruct K as (e & E & -> & B). exists e. split; [exact E|]. split; [reflexivity|]. cbn [builds]. now rewrite H.
  - destruct K as (r1 & B & q & rest & Q & -> & D). exists r1. split; [cbn [builds]; now rewrite H|]. exists q, rest. split; [exact Q|]. split; [|exact D].
    now rewrite <- app_comm_cons, tpackets_cons, app_assoc.
Qed.

Lemma loop_consumed : forall fuel rd buffer r, (List.length buffer <= fuel)%nat -> reader_ok rd -> bytes_ok buffer ->
  consumed (unread rd buffer) r (loop fuel rd buffer r).
Proof.
  induction fuel as [|fuel IH]; intros rd buffer r FU OK OB.
  - destruct buffer; [|cbn in FU; lia]. cbn [consume_loop]. exists []. split; [constructor|]. split; [intros ? []|]. repeat split; try assumption.
    destruct rd; try reflexivity.
  - destruct buffer as [|x buffer].
    + cbn [consume_loop]. exists []. split; [constructor|]. split; [intros ? []|]. repeat split; try assumption. destruct rd; reflexivity.
    + cbn [consume_loop]. remember (x :: buffer) as b eqn:EB. assert (NE : b <> []) by (subst; discriminate).
      destruct (Feed b rd) as [rest rd'] eqn:F. pose proof (Feed_fed b rd rest rd' OK OB NE F) as FF.
      destruct FF as [(-> & L & FR & ->)|(L & D)].
      * rewrite N.eqb_refl. exists []. split; [constructor|]. split; [intros ? []|]. repeat split; [exact L|]. destruct rd; try reflexivity. contradiction.
      * rewrite (proj2 (N.eqb_neq (len rest) (len b))) by lia.
        assert (FU' : (List.length rest <= fuel)%nat) by (unfold len in L; lia).
        destruct D as [(c & n & have & -> & -> & OK' & E)|(c & p & -> & OKP & E)].
        -- cbn [Process]. rewrite E. apply IH; [cbn; lia|exact OK'|constructor].
        -- assert (OR : bytes_ok rest).
           { assert (X : bytes_ok (unread rd b)). { destruct rd as [|c' n' h'|]; try exact OB. destruct OK as (? & ? & ? & ?). cbn [unread].
               apply bytes_ok_app. split; [|apply bytes_ok_app; now split]. unfold header. repeat constructor; try (now apply N.mod_lt); now apply div256. }
             rewrite E in X. now apply bytes_ok_app in X as [_ X]. }
           rewrite E. cbn [Process]. destruct (N.eqb_spec c (code TEND)) as [->|NC].
           ++ destruct rest as [|y rest].
              ** exists []. split; [constructor|]. split; [intros ? []|]. exists p. split; [exact OKP|]. split; [cbn [app]; now rewrite tpackets_one, app_nil_r|reflexivity].
              ** exists []. split; [constructor|]. split; [intros ? []|]. exists r. split; [reflexivity|]. exists (code TEND, p), (y :: rest).
                 split; [exact OKP|]. split; [cbn [app]; now rewrite tpackets_one|]. left. now split.
           ++ destruct (handle c p r) as [r'|] eqn:H.
              ** apply (consumed_more c p rest r r'); try assumption. apply (IH (RComplete c p) rest r'); [exact FU'|exact Logic.I|exact OR].
              ** exists []. split; [constructor|]. split; [intros ? []|]. exists r. split; [reflexivity|]. exists (c, p), rest.
                 split; [exact OKP|]. split; [cbn [app]; now rewrite tpackets_one|]. right. now split.
Qed.

(** The state of ReceiveResponse() in terms of all the bytes of the server *)
Definition received (stream : bytes) (r0 : response) (es : list recv_result) (x : receiving response * bytes) : Prop :=
  let '(s, rest) := x in
  exists got, stream = got ++ rest /\ (consumed got r0 s \/ s = Failed /\ (In RError es \/ In REof es)).

Lemma settled_room : forall rd b, settled rd b -> len b < 4.
Proof. intros rd b [_ S]. destruct rd; try exact S. subst. reflexivity. Qed.

Lemma received_step : forall stream r0 es e x, bytes_ok stream -> received stream r0 es x -> received stream r0 (es ++ [e]) (recv_step code response handle e x).
Proof.
  intros stream r0 es e [s rest] OB (got & E & D).
  destruct s as [rd b r|r|].
  - destruct D as [D|[D _]]; [|discriminate]. destruct D as (ps & F & NO & S & G & B). cbn [recv_step].
    pose proof (settled_room _ _ S) as RO. destruct (N.leb_spec 8192 (len b)); [lia|].
    destruct e as [n| | |].
    + set (k := N.min n (N.min (8192 - len b) (len rest))).
      exists (got ++ take k rest). split; [rewrite <- app_assoc, take_drop; exact E|]. left.
      assert (U : got ++ take k rest = tpackets_bytes ps ++ unread rd (b ++ take k rest)).
      { rewrite G. destruct rd; cbn [unread]; rewrite <- ?app_assoc; reflexivity. }
      assert (OB' : bytes_ok (b ++ take k rest)).
      { rewrite E in OB. apply bytes_ok_app in OB as [O1 O2]. rewrite G in O1. apply bytes_ok_app in O1 as [_ O1].
        apply bytes_ok_app. split; [|now apply bytes_ok_take]. destruct rd; cbn [unread] in O1; try exact O1.
        apply bytes_ok_app in O1 as [_ O1]. now apply bytes_ok_app in O1 as [_ O1]. }
      destruct (loop_consumed (List.length (b ++ take k rest)) rd (b ++ take k rest) r (le_n _) (proj1 S) OB') as (qs & FQ & NQ & K).
      rewrite U. exists (ps ++ qs). split; [now apply Forall_app|]. split.
      { intros p I. apply in_app_or in I as [I|I]; [now apply NO|now apply NQ]. }
      destruct (loop (List.length (b ++ take k rest)) rd (b ++ take k rest) r) as [rd2 b2 r2|r2|].
      * destruct K as (S2 & -> & B2). repeat split; try apply S2; [now rewrite tpackets_app, app_assoc|]. now rewrite builds_app, B.
      * destruct K as (e2 & OE & -> & B2). exists e2. split; [exact OE|]. split; [rewrite <- app_assoc, (tpackets_app ps); reflexivity|]. now rewrite builds_app, B.
      * destruct K as (r2 & B2 & q & rest2 & OQ & -> & D2). exists r2. split; [now rewrite builds_app, B|]. exists q, rest2. split; [exact OQ|].
        split; [rewrite <- app_assoc, (tpackets_app ps), app_assoc; reflexivity|exact D2].
    + exists got. split; [exact E|]. left. exists ps. repeat split; try assumption; apply S.
    + exists got. split; [exact E|]. right. split; [reflexivity|]. left. apply in_or_app. right. now left.
    + exists got. split; [exact E|]. right. split; [reflexivity|]. right. apply in_or_app. right. now left.
  - exists got. split; [exact E|]. destruct D as [D|[D _]]; [now left|discriminate].
  - exists got. split; [exact E|]. destruct D as [D|[_ D]]; [now left|right]. split; [reflexivity|]. destruct D as [D|D]; [left|right]; apply in_or_app; now left.
Qed.

Lemma recv_run_received : forall stream r0 es, bytes_ok stream -> received stream r0 es (run es (recv_start response r0 stream)).
Proof.
  intros stream r0 es OB.
  assert (G : forall es2 es1 x, received stream r0 es1 x -> received stream r0 (es1 ++ es2) (run es2 x)).
  { induction es2 as [|e es2 IH]; intros es1 x R; [now rewrite app_nil_r|]. cbn [recv_run].
    replace (es1 ++ e :: es2) with ((es1 ++ [e]) ++ es2) by (now rewrite <- app_assoc). apply IH. now apply received_step. }
  apply (G es []). exists []. split; [reflexivity|]. left. exists []. split; [constructor|]. split; [intros ? []|]. repeat split.
Qed.

End Receive.

(** ** The request *)

Lemma WritePacket_bytes : forall code c p, code c < 65536 -> len p < 65536 -> WritePacket code c p = tpacket_bytes (code c, p).
Proof.
  intros code c p C L. unfold WritePacket, WriteHeader, le16, tpacket_bytes. cbn [fst snd app].
  rewrite (N.mod_small (len p)) by exact L. rewrite (N.mod_small (len p / 256)) by now apply div256. rewrite (N.mod_small (code c / 256)) by now apply div256. reflexivity.
Qed.

Lemma len_tpacket : forall p, len (tpacket_bytes p) = 4 + len (snd p).
Proof. intros [c p]. unfold tpacket_bytes. cbn [fst snd app]. rewrite !len_cons. lia. Qed.
