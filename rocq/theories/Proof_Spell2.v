(** Every spelling is read; two files that spell the same values are read alike. *)
From Verif Require Import PyBase PyBaseFacts Model_Heap Model_Types Model_Msgpack Model_Document Model_Codec Spec_Msgpack Spec_Index Spec_Spell Proof_Msgpack Proof_Cut Proof_Spell.
Local Open Scope Z_scope.

Lemma read_spelling k ds rest : zlen ds = k -> read_uint k (ds ++ rest) = Ok (big_endian ds, rest).
Proof. intros L. unfold read_uint. rewrite (take_app k ds rest L). cbn [rbind]. rewrite big_endian_unbe. reflexivity. Qed.
Lemma big_endian_range ds : bytes ds -> 0 <= big_endian ds < 256 ^ zlen ds.
Proof. rewrite big_endian_unbe. apply unbe_range. Qed.
Definition reads (f : nat) (p : list N) (o : mobj) : Prop := forall rest, unpack f (p ++ rest) = Ok (o, rest).
Lemma list_reads f ps os : Forall2 (reads f) ps os -> forall rest, unpack_list (unpack f) (length os) (List.concat ps ++ rest) = Ok (os, rest).
Proof.
  induction 1 as [|p o ps os Hp H IH]; intros rest; [reflexivity|]. cbn [length unpack_list List.concat]. rewrite <- app_assoc, (Hp (List.concat ps ++ rest)). cbn [rbind]. rewrite IH. reflexivity.
Qed.
Lemma map_reads f ps es : Forall2 (fun p e => reads f (fst p) (MStr (fst e)) /\ reads f (snd p) (snd e)) ps es -> forall acc rest,
  unpack_map (unpack f) (length es) acc (List.concat (map (fun p => fst p ++ snd p) ps) ++ rest) = Ok (fold_left (fun d e => dset d (fst e) (snd e)) es acc, rest).
Proof.
  induction 1 as [|p e ps es [Hk Hv] H IH]; intros acc rest; [reflexivity|]. cbn [length unpack_map map List.concat fold_left]. rewrite <- !app_assoc, Hk. cbn [rbind]. rewrite Hv. cbn [rbind]. apply IH.
Qed.
Lemma bytes_concat ps : bytes (List.concat ps) -> forall p, In p ps -> bytes p.
Proof. induction ps as [|q ps IH]; intros H p Hin; [contradiction|]. cbn [List.concat] in H. apply bytes_app in H. destruct Hin as [->|Hin]; [tauto|apply IH; tauto]. Qed.
Lemma Forall2_in {A B} (P Q : A -> B -> Prop) ps os : (forall p o, In p ps -> P p o -> Q p o) -> Forall2 P ps os -> Forall2 Q ps os.
Proof. intros K F. induction F as [|p o ps os Hp F IH]; [constructor|]. constructor; [apply K; [left; reflexivity|assumption]|]. apply IH. intros. apply K; [right|]; assumption. Qed.
Lemma concat_length {A} (ps : list (list A)) p : In p ps -> (length p <= length (List.concat ps))%nat.
Proof. induction ps as [|q ps IH]; intros H; [contradiction|]. cbn [List.concat]. rewrite app_length. destruct H as [->|H]; [lia|]. specialize (IH H). lia. Qed.
Ltac heads H := cbn [In] in H; repeat match type of H with _ \/ _ => destruct H as [H|H] end; try contradiction H.
Lemma spelled_reads n : forall p o, (length p <= n)%nat -> bytes p -> spells p o -> reads n p o.
Proof.
  induction n as [|n IH]; intros p o L Hb H.
  { exfalso. destruct p as [|b p]; [|cbn in L; lia]. inversion H as [|[]| | | | | | |hd bs x LH U E|hd bs LH E|hd ps os LH F E|hd ps es LH F E].
    all: destruct LH as [[_ ->]|(c & k & ds & _ & -> & _)]; discriminate E. }
  intros rest. destruct H as [|b|c Hc|c Hc|c k ds Hin L1|c k ds Hin L1|ds L1|ds b L1 Hs|hd bs x LH U|hd bs LH|hd ps os LH F|hd ps es LH F].
  - reflexivity.
  - destruct b; reflexivity.
  - cbn [app]. rewrite unpack_S. rewrite <- (N2Z.id c) at 1. rewrite classify_below by lia. reflexivity.
  - cbn [app]. rewrite unpack_S. replace c with (Z.to_N (Z.of_N c - 256 + 256)) at 1 by lia. rewrite classify_neg by lia. reflexivity.
  - cbn [app]. rewrite unpack_S. heads Hin; injection Hin as <- <-; cbn [classify Z.of_N Z.ltb Z.compare Pos.compare Pos.compare_cont]; rewrite (read_spelling _ ds rest L1); reflexivity.
  - cbn [app]. rewrite unpack_S. heads Hin; injection Hin as <- <-; cbn [classify Z.of_N Z.ltb Z.compare Pos.compare Pos.compare_cont]; rewrite (read_spelling _ ds rest L1); reflexivity.
  - cbn [app]. rewrite unpack_S. change (classify 0xCB) with TgFloat. cbv iota. rewrite (read_spelling _ ds rest L1). reflexivity.
  - cbn [app]. rewrite unpack_S. change (classify 0xCA) with TgFloat32. cbv iota. rewrite (read_spelling _ ds rest L1). cbn [rbind].
    assert (b = Z.to_N (single_double (big_endian ds))) as ->; [|reflexivity]. apply (single_unique (big_endian ds)); [assumption|]. apply single_double_single.
    inversion Hb as [|? ? _ Hd]; subst. pose proof (big_endian_range ds Hd) as R. rewrite L1 in R. exact R.
  - rewrite <- app_assoc. assert (K : forall rest, unpack_str (zlen bs) (bs ++ rest) = Ok (MStr x, rest)) by (intros; apply unpack_str_app, utf8_decoded; assumption).
    destruct LH as [[R ->]|(c & k & ds & Hin & -> & L1 & E)].
    + cbn [app]. rewrite unpack_S, classify_str by lia. apply K.
    + cbn [app]. rewrite unpack_S. heads Hin; injection Hin as <- <-; cbn [classify Z.of_N Z.ltb Z.compare Pos.compare Pos.compare_cont]; rewrite (read_spelling _ ds _ L1); cbn [rbind]; rewrite E; apply K.
  - rewrite <- app_assoc. destruct LH as [[R ->]|(c & k & ds & Hin & -> & L1 & E)]; [lia|].
    cbn [app]. rewrite unpack_S. heads Hin; injection Hin as <- <-; cbn [classify Z.of_N Z.ltb Z.compare Pos.compare Pos.compare_cont]; rewrite (read_spelling _ ds _ L1); cbn [rbind]; rewrite E, (take_app _ bs rest eq_refl); reflexivity.
  - assert (Hh : (1 <= length hd)%nat) by (destruct LH as [[_ ->]|(? & ? & ? & _ & -> & _)]; cbn; lia). rewrite app_length in L. apply bytes_app in Hb. destruct Hb as [_ Hb].
    assert (FR : Forall2 (reads n) ps os).
    { eapply Forall2_in; [|exact F]. intros p o Hin Hp. apply IH; [pose proof (concat_length ps p Hin); lia|eapply bytes_concat; eassumption|assumption]. }
    rewrite <- app_assoc. pose proof (list_reads n ps os FR rest) as K. destruct LH as [[R ->]|(c & k & ds & Hin & -> & L1 & E)].
    + cbn [app]. rewrite unpack_S, classify_arr by lia. unfold zlen. rewrite Nat2Z.id, K. reflexivity.
    + cbn [app]. rewrite unpack_S. heads Hin; injection Hin as <- <-; cbn [classify Z.of_N Z.ltb Z.compare Pos.compare Pos.compare_cont]; rewrite (read_spelling _ ds _ L1); cbn [rbind]; rewrite E; unfold zlen; rewrite Nat2Z.id, K; reflexivity.
  - assert (Hh : (1 <= length hd)%nat) by (destruct LH as [[_ ->]|(? & ? & ? & _ & -> & _)]; cbn; lia). rewrite app_length in L. apply bytes_app in Hb. destruct Hb as [_ Hb].
    assert (FR : Forall2 (fun p e => reads n (fst p) (MStr (fst e)) /\ reads n (snd p) (snd e)) ps es).
    { eapply Forall2_in; [|exact F]. intros p e Hin [Hk Hv]. assert (In (fst p ++ snd p) (map (fun p => fst p ++ snd p) ps)) as Hin' by (apply (in_map (fun p => fst p ++ snd p)); assumption).
      pose proof (concat_length _ _ Hin') as Lp. rewrite app_length in Lp. pose proof (bytes_concat _ Hb _ Hin') as Bp. apply bytes_app in Bp. split; apply IH; try tauto; lia. }
    rewrite <- app_assoc. pose proof (map_reads n ps es FR [] rest) as K. destruct LH as [[R ->]|(c & k & ds & Hin & -> & L1 & E)].
    + cbn [app]. rewrite unpack_S, classify_map by lia. unfold zlen. rewrite Nat2Z.id, K. reflexivity.
    + cbn [app]. rewrite unpack_S. heads Hin; injection Hin as <- <-; cbn [classify Z.of_N Z.ltb Z.compare Pos.compare Pos.compare_cont]; rewrite (read_spelling _ ds _ L1); cbn [rbind]; rewrite E; unfold zlen; rewrite Nat2Z.id, K; reflexivity.
Qed.
Lemma spelled_unpack1 p o rest : bytes p -> spells p o -> unpack1 (p ++ rest) = Ok (o, rest).
Proof.
  intros Hb H. pose proof (spelled_reads (length p) p o (le_n _) Hb H rest) as E. unfold unpack1. pose proof (ext_unpack (length p) (S (length (p ++ rest)))) as X.
  assert (Hl : (length p <= S (length (p ++ rest)))%nat) by (rewrite app_length; lia). specialize (X Hl (p ++ rest) [] o rest E). rewrite !app_nil_r in X. exact X.
Qed.
Lemma unpack_spells bs o r : bytes bs -> (unpack1 bs = Ok (o, r) <-> exists p, bs = p ++ r /\ spells p o).
Proof.
  intros Hb. split; [apply unpack_spelled; assumption|]. intros (p & -> & S). apply spelled_unpack1; [apply bytes_app in Hb; tauto|assumption].
Qed.
Lemma spells_unique p o o' : bytes p -> spells p o -> spells p o' -> o = o'.
Proof. intros Hb H H'. pose proof (spelled_unpack1 p o [] Hb H). pose proof (spelled_unpack1 p o' [] Hb H'). congruence. Qed.
