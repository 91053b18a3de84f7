(** Fragmentation of DTLS 1.2 handshake messages by the send path. *)
From Verif Require Import Prelude PreludeFacts Types Codec Codec12 Env Config Context12 Monad MonadFacts
  Record12 Timer Engine12 Engine12Frame Send12Proofs View12 Queue12Proofs Tx12Proofs.

(** The pieces [cs] of a message body, from offset [off] on, as fragments. *)
Fixpoint pieces (mt total seq off : N) (cs : list bytes) : list bytes :=
  match cs with
  | [] => []
  | c :: cs => (s_hs_header mt total seq off (len c) ++ c) :: pieces mt total seq (off + len c) cs
  end.

(** What is kept besides the send queue, the record numbers and the saved flight. *)
Definition sent_rest (a b : Eng12) : Prop :=
  en_transcript b = en_transcript a /\ en_next_hs b = en_next_hs a /\ en_cfg b = en_cfg a /\ same_keys a b /\ en_minp b = en_minp a /\
  en_suite b = en_suite a /\ en_release b = en_release a.

Lemma create_record_sent E ct ep f s :
  wp (create_record E ct ep true f) (fun r s' =>
    sent_rest s s' /\
    match r with
    | Ok _ => exists rc, sent_as E s (ct, ep, f) (cur_seq ep s) rc /\ en_saved s' = en_saved s ++ [(ct, ep, f)] /\
        concat (en_tx s') = concat (en_tx s) ++ encode rc /\
        en_seq0 s' = (if ep =? 0 then en_seq0 s + 1 else en_seq0 s) /\
        en_seqn s' = (if ep =? 0 then en_seqn s else en_seqn s + 1)
    | Panic n => n = 800
    | Err e => e = EInvalidState \/ e = ETxFull \/ e = ECrypto
    end) s.
Proof.
  unfold create_record. eapply wp_mono; [apply create_record_spec|]. intros r s1 (o & sv & H). cbv zeta in H. destruct r as [u|e|n].
  - destruct H as (-> & _ & frag & HP & _ & ->).
    split; [unfold bump; destruct (ep =? 0); repeat split|].
    exists (mkSRec ct (if ep =? 0 then 0 else 1) (cur_seq ep s) f frag).
    split; [|split; [|split; [|split]]].
    + unfold sent_as. cbn [sr_type sr_epoch sr_plain sr_seq sr_wire]. unfold cur_seq.
      repeat (split; [reflexivity|]). revert HP. unfold payload_of. destruct (ep =? 0) eqn:Hep; exact (fun H => H).
    + unfold bump. destruct (ep =? 0); reflexivity.
    + change (en_tx (set_en_tx ?l ?e)) with l. destruct (can_append _ _ _) eqn:Ha.
      * apply concat_append_last. eapply can_append_nonnil. exact Ha.
      * rewrite concat_app. cbn [concat]. rewrite app_nil_r. reflexivity.
    + unfold bump. destruct (ep =? 0); reflexivity.
    + unfold bump. destruct (ep =? 0); reflexivity.
  - destruct H as (_ & -> & H). split; [repeat split|exact H].
  - destruct H as (_ & -> & H). split; [repeat split|exact H].
Qed.

Lemma sent_rest_trans a b c : sent_rest a b -> sent_rest b c -> sent_rest a c.
Proof.
  intros (A1 & A2 & A3 & (A4 & A5 & A6) & A7 & A8 & A9) (B1 & B2 & B3 & (B4 & B5 & B6) & B7 & B8 & B9).
  repeat split; congruence.
Qed.
Lemma sent_rest_refl a : sent_rest a a.
Proof. repeat split. Qed.

Lemma frag_loop_spec E mt total seq ep prot : forall fuel off rest s,
  25 + prot < c_mtu (en_cfg s) -> (length rest <= fuel)%nat ->
  wp (frag_loop E fuel mt total seq ep prot off rest) (fun r s' =>
    sent_rest s s' /\
    match r with
    | Ok _ => exists cs rs, concat cs = rest /\ Forall (fun c => c <> []) cs /\
        Forall (fun c => 25 + prot + len c <= c_mtu (en_cfg s)) cs /\
        let ks := map (fun f => (CT_HS, ep, f)) (pieces mt total seq off cs) in
        sent_all E s (en_seq0 s) (en_seqn s) ks rs /\ en_saved s' = en_saved s ++ ks /\
        concat (en_tx s') = concat (en_tx s) ++ flat_map encode rs
    | Panic n => n = 800
    | Err e => e = EInvalidState \/ e = ETxFull \/ e = ECrypto
    end) s.
Proof.
  induction fuel as [|fuel IH]; intros off rest s Hm Hf.
  - destruct rest; [|cbn in Hf; lia]. apply wp_ret. split; [apply sent_rest_refl|]. exists [], []. cbn. rewrite !app_nil_r. repeat split; constructor.
  - cbn [frag_loop]. destruct rest as [|b rest0] eqn:Hrest.
    { apply wp_ret. split; [apply sent_rest_refl|]. exists [], []. cbn. rewrite !app_nil_r. repeat split; constructor. }
    rewrite <- Hrest in *. apply wp_bind, wp_get. cbv zeta.
    set (used := match rev (en_tx s) with [] => 0 | b :: _ => len b end). clearbody used.
    set (avail := if _ <? _ then _ else _).
    assert (Ha : 1 <= avail /\ 25 + prot + avail <= c_mtu (en_cfg s)).
    { unfold avail. destruct (_ <? _) eqn:Hlt; lia. }
    clearbody avail. set (chunk := N.min (len rest) avail).
    assert (Hl : 1 <= len rest) by (rewrite Hrest; unfold len; cbn [length]; lia).
    assert (Hc : 1 <= chunk /\ chunk <= len rest /\ 25 + prot + chunk <= c_mtu (en_cfg s)) by (unfold chunk; lia).
    clearbody chunk.
    assert (Lc : len (firstn (N.to_nat chunk) rest) = chunk) by (unfold len in *; rewrite firstn_length; lia).
    apply wp_bind. eapply wp_mono; [apply create_record_sent|]. intros r s1 (R1 & H). destruct r as [u|e|n]; [|split; assumption..].
    destruct H as (rc & H1 & H2 & H3 & H4 & H5).
    eapply wp_mono; [apply (IH (off + chunk))|].
    { destruct R1 as (_ & _ & -> & _). exact Hm. }
    { rewrite skipn_length. unfold len in *. lia. }
    intros r s' (R2 & H). split; [eapply sent_rest_trans; eassumption|]. destruct r as [u'|e|n]; [|exact H..].
    destruct H as (cs & rs & K1 & K2 & K3 & K4 & K5 & K6).
    exists (firstn (N.to_nat chunk) rest :: cs), (rc :: rs).
    split; [cbn [concat]; rewrite K1; apply firstn_skipn|].
    split; [constructor; [|exact K2]; intro X; rewrite X in Lc; unfold len in Lc; cbn in Lc; lia|].
    destruct R1 as (Ra & Rb & Rc & Rd & Re).
    split; [constructor; [lia|rewrite <- Rc; exact K3]|].
    cbv zeta. cbn [pieces map]. rewrite Lc. split; [|split].
    + cbn [sent_all fst snd]. split; [unfold cur_seq in H1; exact H1|].
      assert (K : same_keys s1 s) by (destruct Rd as (? & ? & ?); repeat split; congruence).
      apply (sent_all_keys E s1 s _ K) in K4. rewrite H4, H5 in K4. destruct (ep =? 0); exact K4.
    + rewrite K5, H2, <- app_assoc. reflexivity.
    + rewrite K6, H3, <- app_assoc. reflexivity.
Qed.

(** The pieces of a message: one empty piece for an empty body. *)
Definition message_pieces (body : bytes) (cs : list bytes) : Prop :=
  concat cs = body /\ match body with [] => cs = [[]] | _ => Forall (fun c => c <> []) cs end.

(** Overhead of the protection of epoch [ep]. *)
Definition prot_of (ep : N) (s : Eng12) : N := if 1 <=? ep then N.of_nat (en_minp s) else 0.

Lemma create_handshake_spec E mt mk body s s1 : mk s = (Ok body, s1) -> 25 + prot_of (mt12_epoch mt) s1 < c_mtu (en_cfg s1) ->
  wp (create_handshake E mt mk) (fun r s' =>
    let total := u32 (len body) in let ep := mt12_epoch mt in
    en_transcript s' = en_transcript s1 ++ s_hs_header mt total (en_next_hs s1) 0 total ++ body /\
    en_next_hs s' = u16 (en_next_hs s1 + 1) /\
    match r with
    | Ok _ => exists cs rs, message_pieces body cs /\
        Forall (fun c => 25 + prot_of ep s1 + len c <= c_mtu (en_cfg s1)) cs /\
        let ks := map (fun f => (CT_HS, ep, f)) (pieces mt total (en_next_hs s1) 0 cs) in
        sent_all E s1 (en_seq0 s1) (en_seqn s1) ks rs /\ en_saved s' = en_saved s1 ++ ks /\
        concat (en_tx s') = concat (en_tx s1) ++ flat_map encode rs
    | Panic n => n = 800
    | Err e => e = EInvalidState \/ e = ETxFull \/ e = ECrypto
    end) s.
Proof.
  intros Hmk Hm. unfold create_handshake. apply wp_bind. unfold wp at 1. rewrite Hmk. cbn [fst snd].
  apply wp_bind, wp_get. apply wp_bind, wp_modify. apply wp_bind, wp_modify. cbv zeta.
  set (total := u32 (len body)). set (ep := mt12_epoch mt) in *.
  match goal with |- wp _ _ ?x => set (s2 := x) end.
  assert (K : same_keys s2 s1) by (repeat split).
  apply wp_bind. destruct (1 <=? ep) eqn:Hep.
  - destruct (en_suite s1) eqn:Hs; [|apply wp_fail; ecbn; auto]. apply wp_ret.
    destruct body as [|b0 body0] eqn:Hb.
    + eapply wp_mono; [apply create_record_sent|]. intros r s' (R & H). destruct R as (R1 & R2 & _). rewrite R1, R2. ecbn.
      split; [reflexivity|]. split; [reflexivity|]. destruct r; [|exact H..].
      destruct H as (rc & H1 & H2 & H3 & _). exists [[]], [rc].
      split; [split; reflexivity|]. split; [constructor; [unfold len; cbn [length]; lia|constructor]|].
      cbn [pieces map len length N.of_nat flat_map app]. rewrite !app_nil_r. split; [|split; [exact H2|exact H3]].
      cbn [sent_all fst snd]. split; [exact H1|destruct (_ =? 0); exact I].
    + rewrite <- Hb in *. eapply wp_mono; [apply frag_loop_spec|].
      { unfold prot_of in Hm. rewrite Hep in Hm. exact Hm. }
      { lia. }
      intros r s' (R & H). destruct R as (R1 & R2 & _). rewrite R1, R2. ecbn.
      split; [rewrite Hb; reflexivity|]. split; [reflexivity|]. destruct r; [|exact H..].
      destruct H as (cs & rs & H1 & H2 & H3 & H4 & H5 & H6). exists cs, rs.
      split; [split; [exact H1|rewrite Hb; exact H2]|]. split; [unfold prot_of; rewrite Hep; exact H3|].
      split; [exact (sent_all_keys _ _ _ _ K _ _ _ H4)|]. split; [exact H5|exact H6].
  - apply wp_ret.
    destruct body as [|b0 body0] eqn:Hb.
    + eapply wp_mono; [apply create_record_sent|]. intros r s' (R & H). destruct R as (R1 & R2 & _). rewrite R1, R2. ecbn.
      split; [reflexivity|]. split; [reflexivity|]. destruct r; [|exact H..].
      destruct H as (rc & H1 & H2 & H3 & _). exists [[]], [rc].
      split; [split; reflexivity|]. split; [constructor; [unfold len; cbn [length]; lia|constructor]|].
      cbn [pieces map len length N.of_nat flat_map app]. rewrite !app_nil_r. split; [|split; [exact H2|exact H3]].
      cbn [sent_all fst snd]. split; [exact H1|destruct (_ =? 0); exact I].
    + rewrite <- Hb in *. eapply wp_mono; [apply frag_loop_spec|].
      { unfold prot_of in Hm. rewrite Hep in Hm. exact Hm. }
      { lia. }
      intros r s' (R & H). destruct R as (R1 & R2 & _). rewrite R1, R2. ecbn.
      split; [rewrite Hb; reflexivity|]. split; [reflexivity|]. destruct r; [|exact H..].
      destruct H as (cs & rs & H1 & H2 & H3 & H4 & H5 & H6). exists cs, rs.
      split; [split; [exact H1|rewrite Hb; exact H2]|]. split; [unfold prot_of; rewrite Hep; exact H3|].
      split; [exact (sent_all_keys _ _ _ _ K _ _ _ H4)|]. split; [exact H5|exact H6].
Qed.
