(** LengthP.v -- what is read of streams whose data is measured by Length (C122). *)
From Verif Require Import Base BaseP Msg Reader ReaderP Num Lexer LexerP Obj ReadObj Env Getters Crypt GetObj GetObjP SpecLex SpecObj
  SpecRead SpecFetch SpecLook SpecStream SpecScan FetchP SpecXref SpecRecover RecoverP SpecLength.
From Coq Require Import Strings.String.

Lemma marker_read : forall E file p i n g d h g1 t g2 le a e r out, usual file p i n g d -> reads file p ->
  header h n g -> gap g1 -> obj_text t (ODict d) -> gap g2 -> le = [x0a] \/ le = [x0d; x0a] ->
  zdrop i file = (h ++ g1 ++ t ++ g2 ++ lit "stream" ++ le) ++ a ++ e ++ lit "endstream" ++ r ->
  ~ occurs (lit "endstream") a -> eol_after a e -> zlen (h ++ g1 ++ t ++ g2 ++ lit "stream" ++ le) + 9 <= bufsize -> unfiltered E d a out ->
  fetched E file p n {| inum := n; igen := g; ival := ODict d; istream := out |}.
Proof.
  intros E file p i n g d h g1 t g2 le a e r out [IN NB GN FS TY NX SH (x & X & XO & XG & XT)] R HD G1 T G2 LE Q NO EA Z (fl & pl & FL & PL & CR & D).
  apply (fetch_object E file i {| inum := n; igen := g; ival := ODict d; istream := out |} p x); try assumption.
  split; try assumption.
  - exists h, (g1 ++ t ++ g2 ++ lit "stream" ++ [] ++ le ++ a ++ e ++ lit "endstream" ++ r). split; [rewrite Q; cbn [app]; rewrite <- !app_assoc; reflexivity |]. split; [exact HD |].
    apply bh_stream with (fl := fl) (pl := pl); try assumption.
    + intros b [].
    + right. destruct LE as [-> | ->]; do 2 eexists; (split; [reflexivity |]); left; unfold ws_byte; cbn [In]; tauto.
    + destruct LE as [-> | ->]; constructor.
  - intros d0 Q0. injection Q0 as <-. exact NX.
Qed.

(** The data in front of the first marker is read. *)
Lemma measured_cut : forall E file p i n g d head raw eol a e b out, measured E file p i n g d head raw eol -> usual file p i n g d -> reads file p ->
  zlen head + 9 <= bufsize -> raw = a ++ e ++ lit "endstream" ++ b -> ~ occurs (lit "endstream") a -> eol_after a e -> unfiltered E d a out ->
  fetched E file p n {| inum := n; igen := g; ival := ODict d; istream := out |}.
Proof.
  intros E file p i n g d head raw eol a e b out [h g1 t g2 le w eol0 r HD G1 T G2 LE LN EO Q] U R Z -> NO EA D.
  apply (marker_read E file p i n g d h g1 t g2 le a e (b ++ eol0 ++ lit "endstream" ++ r)); try assumption. rewrite Q, <- !app_assoc. reflexivity.
Qed.
Lemma measured_read : forall E file p i n g d head raw eol out, measured E file p i n g d head raw eol -> usual file p i n g d -> reads file p ->
  zlen head + 9 <= bufsize -> ~ occurs (lit "endstream") raw -> eol_after raw eol -> unfiltered E d raw out ->
  fetched E file p n {| inum := n; igen := g; ival := ODict d; istream := out |}.
Proof.
  intros E file p i n g d head raw eol out [h g1 t g2 le w eol0 r HD G1 T G2 LE LN EO Q] U R Z NO EA D.
  exact (marker_read E file p i n g d h g1 t g2 le w eol0 r out U R HD G1 T G2 LE Q NO EA Z D).
Qed.
