(** Property C57: the codec registry. *)
From Verif Require Import PyBase Model_Collection Spec_Collection Spec_Registry Proof_Registry Prop_Collection.
(** C57: the answers and the final registry of every sequence of operations are those of a map from names to codecs. *)
Theorem C57_registry : forall os, snd (reg_run [] os) = snd (map_run (fun _ => None) os) /\ forall x, dget (fst (reg_run [] os)) x = fst (map_run (fun _ => None) os) x.
Proof. exact reg_history. Qed.
Print Assumptions C57_registry.
Example C57_case : match snd (reg_run [] [OpGet (s "zip") false; OpRegister (s "zip:max") (@rev N) (fun x => Ok (rev x)) (Some (s "zip")); OpRegister (s "zip:max") (@rev N) (fun x => Ok x) None;
    OpUnregister (s "zip"); OpUnregister (s "zip:max"); OpGet (s "zip:max") true]) with
  | [RCodec (Err NotImplementedError); RDone (Ok tt); RDone (Err ValueError); RDone (Err KeyError); RDone (Ok tt); RCodec (Ok None)] => True
  | _ => False
  end.
Proof. exact I. Qed.
