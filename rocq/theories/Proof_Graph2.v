(** Graph searches whose children function raises: proofs. *)
From Verif Require Import PyBase PyBaseFacts Model_Heap Model_Layer Model_Graph Spec_Graph Proof_Graph.
Local Open Scope Z_scope.
Section Raise.
Variables (ch : nat -> list nat) (bad : nat -> option exn) (p : option (nat -> bool)).
Lemma emit_wanted x : (if emit p x then [x] else []) = filter (wanted p) [x].
Proof. unfold emit, wanted. cbn [filter]. destruct p as [g|]; [destruct (g x)|]; reflexivity. Qed.
Lemma bfs_until : forall f w q l, bfs_loop f (fun x => Ok (ch x)) None w q = (l, Ok tt) ->
  let u := until (fun dx => bad (snd dx)) l in
  bfs_loop f (raising ch bad) p w q = (filter (fun dx => wanted p (snd dx)) (fst u ++ raiser (snd u)), ending (snd u)).
Proof.
  induction f as [|f IH]; intros w q l; destruct q as [|[d x] q]; cbn [bfs_loop]; try (intros E; injection E as <-; reflexivity); try discriminate.
  destruct (memb x w); [apply IH|]. cbn [emit]. unfold raising at 1.
  destruct (bfs_loop f (fun x => Ok (ch x)) None (x :: w) _) as [out r] eqn:B. intros E. injection E as <- ->. apply IH in B. cbv zeta in B.
  cbn [until snd]. destruct (bad x) as [e|].
  - cbn. unfold emit, wanted. destruct p as [g|]; [destruct (g x)|]; reflexivity.
  - rewrite B. destruct (until (fun dx => bad (snd dx)) out) as [a z]. cbn [fst snd app filter]. unfold emit, wanted. destruct p as [g|]; [destruct (g x)|]; reflexivity.
Qed.
Lemma dfs_until : forall f w q l, dfs_loop f (fun x => Ok (ch x)) None w q = (l, Ok tt) ->
  let u := until bad l in
  dfs_loop f (raising ch bad) p w q = (filter (wanted p) (fst u ++ raiser (snd u)), ending (snd u)).
Proof.
  induction f as [|f IH]; intros w q l; cbn [dfs_loop]; (destruct (pop q) as [[st x]|]; [|intros E; injection E as <-; reflexivity]); try discriminate.
  destruct (memb x w); [apply IH|]. cbn [emit]. unfold raising at 1.
  destruct (dfs_loop f (fun x => Ok (ch x)) None (x :: w) _) as [out r] eqn:B. intros E. injection E as <- ->. apply IH in B. cbv zeta in B.
  cbn [until]. destruct (bad x) as [e|].
  - cbn. unfold emit, wanted. destruct p as [g|]; [destruct (g x)|]; reflexivity.
  - rewrite B. destruct (until bad out) as [a z]. cbn [fst snd app filter]. unfold emit, wanted. destruct p as [g|]; [destruct (g x)|]; reflexivity.
Qed.
Lemma filter_memb x w : (match filter (fun c => negb (memb c (x :: w))) (ch x) with [] => true | _ => false end) =
  forallb (fun c => if in_dec Nat.eq_dec c (x :: w) then true else false) (ch x).
Proof.
  induction (ch x) as [|c r IH]; [reflexivity|]. cbn [filter forallb]. destruct (in_dec Nat.eq_dec c (x :: w)) as [I|N].
  - apply memb_In in I. rewrite I. exact IH.
  - apply memb_false in N. rewrite N. reflexivity.
Qed.
Lemma leaves_until : forall f w q l, dfs_loop f (fun x => Ok (ch x)) None w q = (l, Ok tt) ->
  let u := until bad l in
  leaves_loop f (raising ch bad) p w q = (filter (wanted p) (closed_ones ch w (fst u)), ending (snd u)).
Proof.
  induction f as [|f IH]; intros w q l; cbn [dfs_loop leaves_loop]; (destruct (pop q) as [[st x]|]; [|intros E; injection E as <-; reflexivity]); try discriminate.
  destruct (memb x w); [apply IH|]. cbn [emit]. unfold raising at 1.
  destruct (dfs_loop f (fun x => Ok (ch x)) None (x :: w) _) as [out r] eqn:B. intros E. injection E as <- ->. apply IH in B. cbv zeta in B.
  cbn [until]. destruct (bad x) as [e|]; [reflexivity|]. rewrite B. destruct (until bad out) as [a z]. cbn [fst snd closed_ones]. rewrite <- filter_memb, filter_app.
  destruct (filter (fun c => negb (memb c (x :: w))) (ch x)); [|reflexivity]. rewrite emit_wanted. reflexivity.
Qed.
End Raise.
Lemma until_map {A B} (f : A -> B) bad l : until bad (map f l) = (map f (fst (until (fun x => bad (f x)) l)), option_map (fun q => (f (fst q), snd q)) (snd (until (fun x => bad (f x)) l))).
Proof. induction l as [|x l IH]; [reflexivity|]. cbn [map until]. destruct (bad (f x)); [reflexivity|]. rewrite IH. destruct (until (fun x => bad (f x)) l). reflexivity. Qed.
Lemma filter_map {A B} (f : A -> B) g l : filter g (map f l) = map f (filter (fun x => g (f x)) l).
Proof. induction l as [|x l IH]; [reflexivity|]. cbn [map filter]. rewrite IH. destruct (g (f x)); reflexivity. Qed.
Lemma keep_all {A} (l : list A) : filter (fun _ => true) l = l.
Proof. induction l as [|x l IH]; [reflexivity|]. cbn. f_equal. exact IH. Qed.
Theorem bfs_raises ch s0 : finite_from ch s0 -> exists out, levels ch 0 [] [s0] out /\
  forall p bad, let u := until (fun dx => bad (snd dx)) out in
  settles (fun f => bfs f s0 (raising ch bad) p) (map (fun dx => (Z.of_nat (fst dx), snd dx)) (filter (fun dx => wanted p (snd dx)) (fst u ++ raiser (snd u))), ending (snd u)).
Proof.
  intros F. destruct (bfs_order ch s0 F) as (out & L & S). exists out. split; [exact L|]. intros p bad u. destruct (S None) as (n & N). exists n. intros k Lk.
  specialize (N k Lk). unfold bfs in *. apply (bfs_until ch bad p) in N. cbv zeta in N. rewrite N. cbn [wanted]. rewrite keep_all. rewrite until_map. cbn [snd]. fold u.
  cbn [fst snd]. destruct u as [a [[x e]|]]; cbn [fst snd option_map raiser ending]; f_equal.
  - etransitivity; [|apply (filter_map (fun dx => (Z.of_nat (fst dx), snd dx)) (fun dx => wanted p (snd dx)))]. rewrite map_app. reflexivity.
  - rewrite !app_nil_r. apply (filter_map (fun dx => (Z.of_nat (fst dx), snd dx)) (fun dx => wanted p (snd dx))).
Qed.
Theorem dfs_raises ch s0 : finite_from ch s0 -> exists v o, preorder ch [] [s0] v o /\
  forall p bad, let u := until bad o in
  settles (fun f => dfs f s0 (raising ch bad) p) (filter (wanted p) (fst u ++ raiser (snd u)), ending (snd u)) /\
  settles (fun f => dfs_leaves f s0 (raising ch bad) p) (filter (wanted p) (closed_ones ch [] (fst u)), ending (snd u)).
Proof.
  intros F. destruct (dfs_order ch s0 F) as (v & o & P & D & _). exists v, o. split; [exact P|]. intros p bad u. destruct (D None) as (n & N).
  assert (E : filter (wanted None) o = o) by apply keep_all. rewrite E in N.
  split; exists n; intros k Lk; specialize (N k Lk); [apply (dfs_until ch bad p) in N|apply (leaves_until ch bad p) in N]; exact N.
Qed.
