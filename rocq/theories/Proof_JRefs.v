(** MsgpackCodec.java 782-832 (resolveReferences) against Spec_JRefs.v. *)
From Verif Require Import PyBase PyBaseFacts Model_Heap Model_Msgpack Model_JStream Model_Codec Model_JCodec Spec_JCodec Spec_JEncode Spec_JRefs Proof_JCodec.
Local Open Scope Z_scope.
Local Arguments s : simpl never.

Lemma target_ok size i : node_exists size i -> jtarget size i = Ok (Z.to_nat i).
Proof. intros (n & -> & H). cbn. destruct (Z.leb_spec 0 i), (Z.ltb_spec i (Z.of_nat n)); try lia. reflexivity. Qed.
Lemma target_bad size i e : no_node size i e -> jtarget size i = Err e.
Proof. intros [->|n -> H]; cbn; [reflexivity|]. destruct (Z.leb_spec 0 i), (Z.ltb_spec i (Z.of_nat n)); try lia; reflexivity. Qed.
Lemma target_or size i : node_exists size i \/ exists e, no_node size i e.
Proof.
  destruct size as [n|]; [|right; eexists; constructor; reflexivity]. destruct (Z_lt_le_dec i 0); [right; eexists; eapply nn_index; [reflexivity|lia]|].
  destruct (Z_lt_le_dec i (Z.of_nat n)); [left; exists n; split; [reflexivity|lia]|right; eexists; eapply nn_index; [reflexivity|lia]].
Qed.
Lemma targets_ok size is : Forall (node_exists size) is -> mapM (jtarget size) is = Ok (map Z.to_nat is).
Proof. induction 1 as [|i is H _ IH]; cbn [mapM map]; [reflexivity|]. rewrite (target_ok _ _ H), IH. reflexivity. Qed.
Lemma targets_bad size is i is' e : Forall (node_exists size) is -> no_node size i e -> mapM (jtarget size) (is ++ i :: is') = Err e.
Proof. induction 1 as [|j is H _ IH]; intros B; cbn [mapM app]; [rewrite (target_bad _ _ _ B); reflexivity|]. rewrite (target_ok _ _ H), (IH B). reflexivity. Qed.
Lemma targets_or size is : Forall (node_exists size) is \/ exists a i b e, is = a ++ i :: b /\ Forall (node_exists size) a /\ no_node size i e.
Proof.
  induction is as [|i is IH]; [left; constructor|]. destruct (target_or size i) as [H|[e H]].
  - destruct IH as [IH|(a & j & b & e & -> & Fa & B)]; [left; constructor; auto|right; exists (i :: a), j, b, e; repeat split; auto].
  - right. exists [], i, is, e. repeat split; auto.
Qed.
Lemma replace_ok x size v : good_ref size v -> exists w, jreplace x size v = Ok w.
Proof.
  intros [i H|is N F|a b Ha Hb L]; cbn [jreplace].
  - rewrite (target_ok _ _ H). eexists. reflexivity.
  - rewrite (targets_ok _ _ F). destruct is; [contradiction|]. eexists. reflexivity.
  - rewrite (target_ok _ _ Ha), (target_ok _ _ Hb). cbn [rbind]. destruct Ha as (n & _ & Ha), Hb as (m & _ & Hb). destruct (Nat.leb_spec (Z.to_nat a) (Z.to_nat b)); [eexists; reflexivity|lia].
Qed.
Lemma replace_bad x size v e : bad_ref size v e -> jreplace x size v = Err e.
Proof.
  intros [i e' H| |is i is' e' F H|a b e' H|a b e' Ha H|a b Ha Hb L]; cbn [jreplace].
  - rewrite (target_bad _ _ _ H). reflexivity.
  - reflexivity.
  - rewrite (targets_bad _ _ _ _ _ F H). destruct is; reflexivity.
  - rewrite (target_bad _ _ _ H). reflexivity.
  - rewrite (target_ok _ _ Ha), (target_bad _ _ _ H). reflexivity.
  - rewrite (target_ok _ _ Ha), (target_ok _ _ Hb). cbn [rbind]. destruct Ha as (n & _ & Ha), Hb as (m & _ & Hb). destruct (Nat.leb_spec (Z.to_nat a) (Z.to_nat b)); [lia|reflexivity].
Qed.
Lemma ref_or size v : positions v -> good_ref size v \/ exists e, bad_ref size v e.
Proof.
  intros P. destruct v; try contradiction; cbn in P.
  - destruct (target_or size i) as [H|[e H]]; [left; constructor; exact H|right; exists e; constructor; exact H].
  - destruct is as [|i is]; [right; exists ValueError; constructor|]. destruct (targets_or size (i :: is)) as [H|(a & j & b & e & -> & Fa & B)]; [left; constructor; [discriminate|exact H]|].
    right. exists e. constructor; assumption.
  - destruct (target_or size left) as [H|[e H]]; [|right; exists e; apply br_left; exact H]. destruct (target_or size right) as [H'|[e H']]; [|right; exists e; apply br_right; assumption].
    destruct (Z_le_gt_dec left right); [left; constructor; assumption|right; exists DataError; apply br_order; [assumption|assumption|lia]].
Qed.
Lemma cells_or size c : (forall v, In (Some v) c -> positions v) -> Forall (good_cell size) c \/ exists pre v post e, c = pre ++ Some v :: post /\ Forall (good_cell size) pre /\ bad_ref size v e.
Proof.
  induction c as [|o c IH]; intros P; [left; constructor|]. assert (G : good_cell size o \/ exists v e, o = Some v /\ bad_ref size v e).
  { destruct o as [v|]; [|left; exact I]. destruct (ref_or size v (P v (or_introl eq_refl))) as [H|[e H]]; [left; exact H|right; exists v, e; auto]. }
  destruct G as [G|(v & e & -> & B)].
  - destruct IH as [IH|(a & j & b & e & -> & Fa & B)]; [intros v I; apply P; right; exact I|left; constructor; assumption|right; exists (o :: a), j, b, e; repeat split; auto].
  - right. exists [], v, c, e. repeat split; auto.
Qed.
(** one field *)
Notation step sizes x f := (fun n : dict jv => match dget n f with None => Ok n | Some v => let* w := jreplace x (dget sizes x) v in Ok (dset n f w) end).
Lemma ref_field sizes f t nodes : ref_type t -> jresolve_field sizes (f, t) nodes = let* x := arg_name t (s "layer") in mapM (step sizes x f) nodes.
Proof. intros R. unfold jresolve_field. cbn [fst snd]. destruct R as [E|[E|E]]; rewrite E; reflexivity. Qed.
Lemma other_field sizes f t nodes : ~ ref_type t -> jresolve_field sizes (f, t) nodes = Ok nodes.
Proof. intros R. unfold jresolve_field. cbn [fst snd]. unfold ref_type in R. destruct (ty_name t) as [|n|]; try reflexivity. destruct n; try reflexivity; exfalso; apply R; auto. Qed.
Lemma ref_dec t : ref_type t \/ ~ ref_type t.
Proof. unfold ref_type. destruct (ty_name t) as [|n|]; [right|destruct n|right]; try (intuition discriminate). Qed.
Lemma steps_ok sizes x f nodes : Forall (good_cell (dget sizes x)) (column f nodes) ->
  exists ns, mapM (step sizes x f) nodes = Ok ns /\ forall g, g <> f -> column g ns = column g nodes.
Proof.
  induction nodes as [|n nodes IH]; intros F; cbn [mapM]; [exists []; auto|]. unfold column in F. cbn [map] in F. inversion F as [|? ? G F']; subst. destruct (IH F') as (ns & -> & C). clear IH.
  destruct (dget n f) as [v|] eqn:E; cbn [rbind].
  - cbn in G. destruct (replace_ok x _ _ G) as [w ->]. cbn [rbind]. exists (dset n f w :: ns). split; [reflexivity|]. intros g Ng. unfold column in *. cbn [map]. rewrite (C g Ng), dget_dset_other by exact Ng. reflexivity.
  - exists (n :: ns). split; [reflexivity|]. intros g Ng. unfold column in *. cbn [map]. rewrite (C g Ng). reflexivity.
Qed.
Lemma steps_bad sizes x f v post e : forall nodes pre, column f nodes = pre ++ Some v :: post -> Forall (good_cell (dget sizes x)) pre -> bad_ref (dget sizes x) v e ->
  mapM (step sizes x f) nodes = Err e.
Proof.
  induction nodes as [|n nodes IH]; intros pre C F B; [destruct pre; discriminate|]. cbn [mapM]. unfold column in *. cbn [map] in C. destruct pre as [|o pre]; cbn [app] in C; injection C as C1 C2.
  - rewrite C1. rewrite (replace_bad _ _ _ _ B). reflexivity.
  - inversion F as [|? ? G F']; subst. rewrite (IH pre C2 F' B). destruct (dget n f) as [u|]; [|reflexivity]. cbn in G. destruct (replace_ok x _ _ G) as [w ->]. reflexivity.
Qed.
Lemma field_good sizes nodes f t : good_field sizes nodes (f, t) -> exists ns, jresolve_field sizes (f, t) nodes = Ok ns /\ forall g, g <> f -> column g ns = column g nodes.
Proof.
  intros G. destruct (ref_dec t) as [R|R]; [|rewrite (other_field _ _ _ _ R); eauto]. destruct (G R) as (x & A & F). rewrite (ref_field _ _ _ _ R). unfold arg_name. cbn [snd] in A. rewrite A. cbn [rbind]. apply steps_ok. exact F.
Qed.
Lemma field_bad sizes nodes f t e : bad_field sizes nodes f t e -> jresolve_field sizes (f, t) nodes = Err e.
Proof.
  intros [R M|x pre v post e' R A C F B]; rewrite (ref_field _ _ _ _ R); unfold arg_name; [rewrite M; reflexivity|]. rewrite A. cbn [rbind]. eapply steps_bad; eassumption.
Qed.
Lemma field_or sizes nodes f t : plain_field nodes (f, t) -> good_field sizes nodes (f, t) \/ exists e, bad_field sizes nodes f t e.
Proof.
  intros P. destruct (ref_dec t) as [R|R]; [|left; intros R'; contradiction]. destruct (P R) as [A V]. cbn [fst snd] in *.
  destruct (dget (ty_args t) (s "layer")) as [w|] eqn:E; [|right; eexists; apply bf_unnamed; assumption]. destruct w; try contradiction.
  destruct (cells_or (dget sizes x) (column f nodes) V) as [G|(pre & v & post & e & C & F & B)]; [left; intros _; exists x; split; [exact E|exact G]|].
  right. exists e. eapply bf_value; eassumption.
Qed.
(** all fields *)
Lemma moved_good sizes nodes ns g t : column g ns = column g nodes -> good_field sizes nodes (g, t) <-> good_field sizes ns (g, t).
Proof. unfold good_field. cbn [fst snd]. intros ->. reflexivity. Qed.
Lemma moved_bad sizes nodes ns g t e : column g ns = column g nodes -> bad_field sizes nodes g t e -> bad_field sizes ns g t e.
Proof. intros C [R M|x pre v post e' R A E F B]; [apply bf_unnamed; assumption|]. rewrite <- C in E. eapply bf_value; eassumption. Qed.
Lemma moved_plain nodes ns g t : column g ns = column g nodes -> plain_field nodes (g, t) -> plain_field ns (g, t).
Proof. unfold plain_field. cbn [fst snd]. intros ->. auto. Qed.
Lemma resolve_bad sizes f t fs2 e : forall fs1 nodes, NoDup (map fst (fs1 ++ (f, t) :: fs2)) -> Forall (good_field sizes nodes) fs1 -> bad_field sizes nodes f t e ->
  jresolve sizes (fs1 ++ (f, t) :: fs2) nodes = Err e.
Proof.
  induction fs1 as [|[g u] fs1 IH]; intros nodes N G B; cbn [app jresolve].
  - rewrite (field_bad _ _ _ _ _ B). reflexivity.
  - inversion G as [|? ? Gg G']; subst. destruct (field_good _ _ _ _ Gg) as (ns & -> & C). cbn [rbind]. cbn [app map fst] in N. inversion N as [|? ? Ng N']; subst.
    apply IH; [exact N'| |].
    + rewrite Forall_forall in *. intros [k z] I. apply (moved_good sizes nodes ns); [apply C|apply G'; exact I]. intros ->. apply Ng. rewrite map_app. apply in_or_app. left. apply (in_map fst _ _ I).
    + apply (moved_bad _ nodes); [|exact B]. apply C. intros ->. apply Ng. rewrite map_app. apply in_or_app. right. left. reflexivity.
Qed.
Lemma resolve_good sizes : forall fs nodes, NoDup (map fst fs) -> Forall (good_field sizes nodes) fs -> exists ns, jresolve sizes fs nodes = Ok ns.
Proof.
  induction fs as [|[g u] fs IH]; intros nodes N G; cbn [jresolve]; [eauto|]. inversion G as [|? ? Gg G']; subst. destruct (field_good _ _ _ _ Gg) as (ns & -> & C). cbn [rbind].
  cbn [map fst] in N. inversion N as [|? ? Ng N']; subst. apply IH; [exact N'|]. rewrite Forall_forall in *. intros [k z] I. apply (moved_good sizes nodes ns); [apply C|apply G'; exact I].
  intros ->. apply Ng. apply (in_map fst _ _ I).
Qed.
Lemma fields_or sizes nodes : forall fs, Forall (plain_field nodes) fs ->
  Forall (good_field sizes nodes) fs \/ exists fs1 f t fs2 e, fs = fs1 ++ (f, t) :: fs2 /\ Forall (good_field sizes nodes) fs1 /\ bad_field sizes nodes f t e.
Proof.
  induction 1 as [|[g u] fs P _ IH]; [left; constructor|]. destruct (field_or sizes nodes g u P) as [G|[e B]].
  - destruct IH as [IH|(fs1 & f & t & fs2 & e & -> & F & B)]; [left; constructor; assumption|right; exists ((g, u) :: fs1), f, t, fs2, e; repeat split; auto].
  - right. exists [], g, u, fs, e. repeat split; auto.
Qed.
Lemma resolve_err sizes fs nodes e : NoDup (map fst fs) -> Forall (plain_field nodes) fs ->
  jresolve sizes fs nodes = Err e <-> exists fs1 f t fs2, fs = fs1 ++ (f, t) :: fs2 /\ Forall (good_field sizes nodes) fs1 /\ bad_field sizes nodes f t e.
Proof.
  intros N P. split.
  - intros E. destruct (fields_or sizes nodes fs P) as [G|(fs1 & f & t & fs2 & e' & -> & F & B)].
    + destruct (resolve_good sizes fs nodes N G) as [ns E']. congruence.
    + rewrite (resolve_bad _ _ _ _ _ _ _ N F B) in E. injection E as <-. exists fs1, f, t, fs2. auto.
  - intros (fs1 & f & t & fs2 & -> & F & B). apply resolve_bad; assumption.
Qed.
Lemma resolve_ok sizes fs nodes : NoDup (map fst fs) -> Forall (plain_field nodes) fs ->
  (exists ns, jresolve sizes fs nodes = Ok ns) <-> Forall (good_field sizes nodes) fs.
Proof.
  intros N P. split; [|apply resolve_good; exact N]. intros [ns E]. destruct (fields_or sizes nodes fs P) as [G|(fs1 & f & t & fs2 & e' & -> & F & B)]; [exact G|].
  rewrite (resolve_bad _ _ _ _ _ _ _ N F B) in E. discriminate.
Qed.
(** ** what a file can have in the columns of references *)
Lemma cell_positions texts t key bs v r : In t [TNodeRef; TNodeRefMany; TNodeRefSpan] -> jcell texts t key bs = Ok (v, r) -> positions v.
Proof.
  intros [<-|[<-|[<-|[]]]] E; cbn [jcell] in E.
  - destruct (mu_int bs) as [[i q]|]; [|discriminate]. cbn [rbind] in E. injection E as <- <-. exact I.
  - destruct (mu_array bs) as [[n q]|]; [|discriminate]. cbn [rbind] in E. destruct (jread_ints _ q) as [[is q']|]; [|discriminate]. cbn [rbind] in E. injection E as <- <-. exact I.
  - destruct (mu_array bs) as [[n q]|]; [|discriminate]. cbn [rbind] in E. destruct (negb _); [discriminate|]. destruct (mu_int q) as [[a q1]|]; [|discriminate]. cbn [rbind] in E.
    destruct (mu_int q1) as [[b q2]|]; [|discriminate]. cbn [rbind] in E. injection E as <- <-. exact I.
Qed.
Lemma cells_positions texts t key : In t [TNodeRef; TNodeRefMany; TNodeRefSpan] -> forall n bs col r, jcells texts t key n bs = Ok (col, r) -> forall v, In (Some v) col -> positions v.
Proof.
  intros T. induction n as [|n IH]; intros bs col r E v I; cbn [jcells] in E; [injection E as <- <-; contradiction|].
  destruct (jcell_opt texts t key bs) as [[o r1]|] eqn:E1; [|discriminate]. cbn [rbind] in E. destruct (jcells texts t key n r1) as [[q r2]|] eqn:E2; [|discriminate]. cbn [rbind] in E. injection E as <- <-.
  destruct I as [->|I]; [|eapply IH; eassumption]. unfold jcell_opt in E1. destruct (mu_try_nil bs) as [[b q']|]; [|discriminate]. cbn [rbind] in E1. destruct b.
  - destruct (match t with TSpan => mu_nil q' | _ => Ok q' end); cbn [rbind] in E1; discriminate.
  - destruct (jcell texts t key q') as [[w q'']|] eqn:E3; [|discriminate]. cbn [rbind] in E1. injection E1 as <- <-. eapply cell_positions; eassumption.
Qed.
Lemma put_same f v : forall nodes col, In (Some v) (column f (put_column f nodes col)) -> In (Some v) (column f nodes) \/ In (Some v) col.
Proof.
  induction nodes as [|n nodes IH]; intros col I; [left; destruct col; exact I|]. destruct col as [|[w|] col]; cbn [put_column] in I; [left; exact I| |]; unfold column in *; cbn [map In] in *.
  - rewrite dget_dset_same in I. destruct I as [E|I]; [right; left; exact E|]. destruct (IH _ I); auto.
  - destruct I as [E|I]; [auto|]. destruct (IH _ I); auto.
Qed.
Lemma put_other f g : g <> f -> forall nodes col, column g (put_column f nodes col) = column g nodes.
Proof.
  intros N. induction nodes as [|n nodes IH]; intros col; [destruct col; reflexivity|]. destruct col as [|[w|] col]; cbn [put_column]; [reflexivity| |]; unfold column in *; cbn [map].
  - rewrite dget_dset_other by exact N. rewrite IH. reflexivity.
  - rewrite IH. reflexivity.
Qed.
Lemma columns_positions texts : forall fs nodes bs ns r, jread_columns texts fs nodes bs = Ok (ns, r) -> NoDup (map fst fs) ->
  (forall g, ~ In g (map fst fs) -> column g ns = column g nodes) /\
  forall f t v, In (f, t) fs -> ref_type t -> In (Some v) (column f ns) -> In (Some v) (column f nodes) \/ positions v.
Proof.
  induction fs as [|[g u] fs IH]; intros nodes bs ns r E N; cbn [jread_columns] in E.
  - injection E as <- <-. split; [reflexivity|contradiction].
  - destruct (mu_bool bs) as [[b q]|]; [|discriminate]. cbn [rbind] in E. destruct b; [discriminate|]. destruct (mu_array q) as [[m q1]|]; [|discriminate]. cbn [rbind] in E.
    destruct (jkey u) as [key|]; [|discriminate]. cbn [rbind] in E. destruct (ty_name u) as [|tn|] eqn:T; try discriminate.
    destruct (jcells texts tn key (length nodes) q1) as [[col q2]|] eqn:E1; [|discriminate]. cbn [rbind] in E. cbn [map fst] in N. inversion N as [|? ? Ng N']; subst.
    destruct (IH _ _ _ _ E N') as [C P]. split.
    + intros k Nk. cbn [map fst In] in Nk. rewrite C by tauto. apply put_other. intros ->. tauto.
    + intros f t v [Eq|I] R V.
      * injection Eq as <- <-. rewrite (C _ Ng) in V. apply put_same in V. destruct V as [V|V]; [left; exact V|right]. eapply cells_positions; [|exact E1|exact V].
        destruct R as [R|[R|R]]; rewrite R in T; injection T as <-; cbn; auto.
      * destruct (P f t v I R V) as [V'|V']; [|right; exact V']. left. rewrite put_other in V'; [exact V'|]. intros ->. apply Ng. apply (in_map fst _ _ I).
Qed.
Lemma layer_positions texts fs bs nodes r : jread_layer texts fs bs = Ok (nodes, r) -> NoDup (map fst fs) -> forall f t v, In (f, t) fs -> ref_type t -> In (Some v) (column f nodes) -> positions v.
Proof.
  intros E N f t v I R V. unfold jread_layer in E. destruct (mu_int bs) as [[z q]|]; [|discriminate]. cbn [rbind] in E. destruct (mu_int q) as [[n q1]|]; [|discriminate]. cbn [rbind] in E.
  destruct (n <? 0); [discriminate|]. destruct (columns_positions _ _ _ _ _ _ E N) as [_ P]. destruct (P f t v I R V) as [V'|V']; [|exact V'].
  exfalso. unfold column in V'. apply in_map_iff in V'. destruct V' as (d & D & Id). apply repeat_spec in Id. subst d. discriminate.
Qed.
(** ** the whole file *)
Lemma dmem_keys {A} (d : dict A) k : dmem d k = false -> ~ In k (map fst d).
Proof.
  unfold dmem. intros H I. destruct (dget d k) eqn:E; [discriminate|]. clear H. induction d as [|[k' v] d IH]; [contradiction|]. cbn [dget] in E. destruct (str_eqb k k') eqn:Q; [discriminate|].
  cbn [map fst In] in I. destruct I as [->|I]; [|auto]. rewrite str_eqb_refl in Q. discriminate.
Qed.
Lemma fields_nodup : forall n acc bs d r, jread_fields n acc bs = Ok (d, r) -> NoDup (map fst acc) -> NoDup (map fst d).
Proof.
  induction n as [|n IH]; intros acc bs d r E N; cbn [jread_fields] in E; [injection E as <- <-; exact N|]. destruct (jread_field bs) as [[ft q]|]; [|discriminate]. cbn [rbind] in E.
  destruct (dmem acc (fst ft)) eqn:M; [discriminate|]. apply (IH _ _ _ _ E). rewrite map_app. cbn [map]. apply NoDup_Add with (a := fst ft) (l := map fst acc).
  - replace (map fst acc ++ [fst ft]) with (map fst acc ++ fst ft :: []) by reflexivity. rewrite <- (app_nil_r (map fst acc)) at 1. apply Add_app.
  - split; [exact N|apply dmem_keys; exact M].
Qed.
Lemma schemas_nodup : forall names bs d r, jread_schemas names bs = Ok (d, r) -> Forall (fun kf => NoDup (map fst (snd kf))) d.
Proof.
  induction names as [|x names IH]; intros bs d r E; cbn [jread_schemas] in E; [injection E as <- <-; constructor|]. destruct (mu_int bs) as [[n q]|]; [|discriminate]. cbn [rbind] in E.
  destruct (jread_fields (Z.to_nat n) [] q) as [[fs q1]|] eqn:F; [|discriminate]. cbn [rbind] in E. destruct (jread_schemas names q1) as [[m q2]|] eqn:S; [|discriminate]. cbn [rbind] in E. injection E as <- <-.
  constructor; [|eapply IH; exact S]. cbn [snd]. eapply fields_nodup; [exact F|constructor].
Qed.
Lemma schema_nodup bs d r : jread_schema bs = Ok (d, r) -> Forall (fun kf => NoDup (map fst (snd kf))) d.
Proof.
  unfold jread_schema. intros E. destruct (mu_array bs) as [[n q]|]; [|discriminate]. cbn [rbind] in E. destruct (jread_names (Z.to_nat n) q) as [[names q1]|]; [|discriminate]. cbn [rbind] in E.
  destruct (names_nodup names); [|discriminate]. eapply schemas_nodup. exact E.
Qed.
Definition layer_fine (kl : pystr * (dict jdtype * list (dict jv))) : Prop :=
  NoDup (map fst (fst (snd kl))) /\ forall f t v, In (f, t) (fst (snd kl)) -> ref_type t -> In (Some v) (column f (snd (snd kl))) -> positions v.
Lemma layers_fine texts : forall sch bs d r, jread_layers texts sch bs = Ok (d, r) -> Forall (fun kf => NoDup (map fst (snd kf))) sch -> Forall layer_fine d.
Proof.
  induction sch as [|[k fs] sch IH]; intros bs d r E N; cbn [jread_layers] in E; [injection E as <- <-; constructor|]. inversion N as [|? ? N1 N2]; subst. cbn [snd] in N1.
  destruct (jread_layer texts fs bs) as [[ns q]|] eqn:L; [|discriminate]. cbn [rbind] in E. destruct (jread_layers texts sch q) as [[m q1]|] eqn:R; [|discriminate]. cbn [rbind] in E. injection E as <- <-.
  constructor; [|eapply IH; eassumption]. split; cbn [fst snd]; [exact N1|]. eapply layer_positions; eassumption.
Qed.
Notation whole sizes := (fun kl : pystr * (dict jdtype * list (dict jv)) => let* ns := jresolve sizes (fst (snd kl)) (snd (snd kl)) in Ok (fst kl, (fst (snd kl), ns))).
Lemma whole_bad sizes k fs1 f t fs2 nodes ls' e : forall ls, NoDup (map fst (fs1 ++ (f, t) :: fs2)) -> Forall layer_fine ls -> Forall (good_layer sizes) ls -> Forall (good_field sizes nodes) fs1 ->
  bad_field sizes nodes f t e -> mapM (whole sizes) (ls ++ (k, (fs1 ++ (f, t) :: fs2, nodes)) :: ls') = Err e.
Proof.
  induction ls as [|[k' [fs ns]] ls IH]; intros N F G Gf B; cbn [app mapM fst snd].
  - rewrite (resolve_bad _ _ _ _ _ _ _ N Gf B). reflexivity.
  - inversion F as [|? ? [F1 _] F2]; subst. inversion G as [|? ? G1 G2]; subst. destruct (resolve_good sizes fs ns F1 G1) as [m ->]. cbn [rbind]. rewrite (IH N F2 G2 Gf B). reflexivity.
Qed.
Lemma whole_good sizes : forall ls, Forall layer_fine ls -> Forall (good_layer sizes) ls -> exists m, mapM (whole sizes) ls = Ok m.
Proof.
  induction ls as [|[k' [fs ns]] ls IH]; intros F G; cbn [mapM fst snd]; [eauto|].
  inversion F as [|? ? [F1 _] F2]; subst. inversion G as [|? ? G1 G2]; subst. destruct (resolve_good sizes fs ns F1 G1) as [m ->]. cbn [rbind]. destruct (IH F2 G2) as [m' ->]. cbn [rbind]. eauto.
Qed.
Lemma layers_or sizes : forall ls, Forall layer_fine ls -> string_options ls ->
  Forall (good_layer sizes) ls \/ exists ls1 k fs1 f t fs2 nodes ls2 e, ls = ls1 ++ (k, (fs1 ++ (f, t) :: fs2, nodes)) :: ls2 /\ Forall (good_layer sizes) ls1 /\
    Forall (good_field sizes nodes) fs1 /\ bad_field sizes nodes f t e.
Proof.
  induction ls as [|[k [fs ns]] ls IH]; intros F S; [left; constructor|]. inversion F as [|? ? [F1 P] F2]; subst. cbn [fst snd] in F1, P.
  assert (Q : Forall (plain_field ns) fs).
  { apply Forall_forall. intros [f t] I R. cbn [fst snd] in *. split; [apply (S k fs ns f t); [left; reflexivity|exact I|exact R]|intros v V; apply (P f t v I R V)]. }
  destruct (fields_or sizes ns fs Q) as [G|(fs1 & f & t & fs2 & e & -> & Gf & B)].
  - destruct IH as [IH|(ls1 & k' & fs1 & f & t & fs2 & nodes & ls2 & e & -> & G1 & G2 & B)]; [exact F2|intros ? ? ? ? ? I; eapply S; right; exact I|left; constructor; assumption|].
    right. exists ((k, (fs, ns)) :: ls1), k', fs1, f, t, fs2, nodes, ls2, e. repeat split; auto.
  - right. exists [], k, fs1, f, t, fs2, ns, ls, e. repeat split; auto.
Qed.
Lemma decode_sections bs layers : sections_read bs layers -> Forall layer_fine layers /\
  exists props texts, java_decode bs = let* ls := mapM (whole (layer_sizes layers)) layers in Ok (mkJDoc props texts ls).
Proof.
  intros (r & props & r1 & sch & r2 & texts & r3 & r4 & E1 & E2 & E3 & E4 & E5). split; [eapply layers_fine; [exact E5|eapply schema_nodup; exact E3]|].
  exists props, (map (fun kt => (fst kt, fst (snd kt))) texts). unfold java_decode. rewrite E1. cbn [rbind]. change (negb (list_eqb N.eqb magic magic)) with false. cbv iota. rewrite E2. cbn [rbind]. rewrite E3. cbn [rbind]. rewrite E4. cbn [rbind].
  rewrite E5. reflexivity.
Qed.
(** the first field in the order of the file; only what does not depend on this order is stated *)
Definition first_bad (layers : dict (dict jdtype * list (dict jv))) (e : exn) : Prop :=
  exists ls k fs1 f t fs2 nodes ls', layers = ls ++ (k, (fs1 ++ (f, t) :: fs2, nodes)) :: ls' /\ Forall (good_layer (layer_sizes layers)) ls /\
    Forall (good_field (layer_sizes layers) nodes) fs1 /\ bad_field (layer_sizes layers) nodes f t e.
Lemma references_first bs layers e : sections_read bs layers -> string_options layers -> java_decode bs = Err e <-> first_bad layers e.
Proof.
  intros R S. destruct (decode_sections _ _ R) as (F & props & texts & ->). split.
  - intros E. destruct (layers_or (layer_sizes layers) layers F S) as [G|(ls1 & k & fs1 & f & t & fs2 & nodes & ls2 & e' & Q & G1 & G2 & B)].
    + destruct (whole_good _ _ F G) as [m E']. rewrite E' in E. discriminate.
    + assert (N : NoDup (map fst (fs1 ++ (f, t) :: fs2)) /\ Forall layer_fine ls1).
      { rewrite Q in F. apply Forall_app in F. destruct F as [Fa Fb]. inversion Fb as [|? ? [N _] _]; subst. split; [exact N|exact Fa]. }
      destruct N as [N Fa]. rewrite Q in E at 1. rewrite (whole_bad _ _ _ _ _ _ _ _ _ _ N Fa G1 G2 B) in E. injection E as <-. exists ls1, k, fs1, f, t, fs2, nodes, ls2. auto.
  - intros (ls1 & k & fs1 & f & t & fs2 & nodes & ls2 & Q & G1 & G2 & B).
    assert (N : NoDup (map fst (fs1 ++ (f, t) :: fs2)) /\ Forall layer_fine ls1).
    { rewrite Q in F. apply Forall_app in F. destruct F as [Fa Fb]. inversion Fb as [|? ? [N _] _]; subst. split; [exact N|exact Fa]. }
    destruct N as [N Fa]. rewrite Q at 1. rewrite (whole_bad _ _ _ _ _ _ _ _ _ _ N Fa G1 G2 B). reflexivity.
Qed.
Lemma references_read bs layers : sections_read bs layers -> string_options layers -> (exists j, java_decode bs = Ok j) <-> Forall (good_layer (layer_sizes layers)) layers.
Proof.
  intros R S. pose proof (fun e => references_first bs layers e R S) as B. destruct (decode_sections _ _ R) as (F & props & texts & E). split.
  - intros [j J]. destruct (layers_or (layer_sizes layers) layers F S) as [G|(ls1 & k & fs1 & f & t & fs2 & nodes & ls2 & e' & Q)]; [exact G|]. exfalso.
    assert (X : java_decode bs = Err e') by (apply B; exists ls1, k, fs1, f, t, fs2, nodes, ls2; exact Q). congruence.
  - intros G. destruct (whole_good _ _ F G) as [m E']. rewrite E, E'. cbn [rbind]. eauto.
Qed.
Lemma references_refused bs layers e : sections_read bs layers -> string_options layers -> java_decode bs = Err e -> some_bad layers e.
Proof.
  intros R S E. apply (references_first bs layers e R S) in E. destruct E as (ls & k & fs1 & f & t & fs2 & nodes & ls' & Q & G & _ & B).
  exists ls, k, (fs1 ++ (f, t) :: fs2), nodes, ls', f, t. repeat split; auto. apply in_or_app. right. left. reflexivity.
Qed.
Lemma references_one bs layers e : sections_read bs layers -> string_options layers -> one_bad layers e -> java_decode bs = Err e.
Proof.
  intros R S (ls & k & fs1 & f & t & fs2 & nodes & ls' & Q & G & G' & B). apply (references_first bs layers e R S). apply Forall_app in G'. destruct G' as [G1 _].
  exists ls, k, fs1, f, t, fs2, nodes, ls'. auto.
Qed.
(** ** columns in other forms *)
Lemma special_column bs k f t fs sch texts a z b n rest : before_layers bs ((k, (f, t) :: fs) :: sch) texts (a ++ b ++ 195%N :: rest) ->
  pack (MInt z) = Ok a -> int_range z -> pack (MInt n) = Ok b -> int_range n -> 0 <= n -> java_decode bs = Err NotImplementedError.
Proof.
  intros (r0 & props & r1 & r2 & E1 & E2 & E3 & E4) A Rz B Rn N. unfold java_decode. rewrite E1. cbn [rbind]. change (negb (list_eqb N.eqb magic magic)) with false. cbv iota.
  rewrite E2. cbn [rbind]. rewrite E3. cbn [rbind]. rewrite E4. cbn [rbind jread_layers]. unfold jread_layer. rewrite (mu_int_pack _ _ _ A Rz). cbn [rbind]. rewrite (mu_int_pack _ _ _ B Rn). cbn [rbind].
  destruct (Z.ltb_spec n 0); [lia|]. reflexivity.
Qed.
