(** Examples for C13: three fragments of an SCTP datagram. *)
From Coq Require Import String.
From Verif Require Import Base Lists Cstr_Model IpKey_Model IpKey_Spec Maglev_Model FlowLb_Model FlowLb_Spec FlowLb4_Proofs Lb_Model Steer_Spec.
From Verif Require Frag_Model Frag_Spec.

Definition frag (lo : list Z) (payload : list Z) : list Z := [69;0;0;36; 0;7] ++ lo ++ [64;132;0;0; 10;0;0;1; 10;0;0;2] ++ payload.
Definition f1 := frag [32;0] [4;210; 0;80; 7;7;7;7; 1;1;1;1; 1;1;1;1].
Definition f2 := frag [32;2] [2;2;2;2; 2;2;2;2].
Definition f3 := frag [0;3] [3;3;3;3].
Definition fd : dgram := mkD (mapped [10;0;0;1]) (mapped [10;0;0;2]) [0;7;0;0;0;0;0;0].
Fixpoint hrun (pp : Z -> bool -> Z -> list Z -> prog) (s : state) (l : list arrival) : option (list Z) :=
  match l with
  | [] => Some []
  | (now, done, eth, data) :: r =>
      match runp (pp now done eth data) s with
      | Some (Verdict v, s', _) => match hrun pp s' r with Some vs => Some (v :: vs) | None => None end
      | _ => None
      end
  end.
Lemma hrun_handled pp (env : state -> Prop) l : (forall s, env s) -> forall s vs, hrun pp s l = Some vs -> handled pp env (t_ft s) l vs.
Proof.
  intros EV. induction l as [|[[[now done] eth] data] r IH]; intros s vs H; cbn [hrun] in H; [injection H as <-; constructor|].
  destruct (runp (pp now done eth data) s) as [[[[v|] s'] ev]|] eqn:E; try discriminate. destruct (hrun pp s' r) as [vs'|] eqn:E'; [|discriminate].
  injection H as <-. econstructor; eauto.
Qed.
Definition c13_l : list arrival := [(5, false, 2048, f2); (10, false, 2048, f1); (20, false, 2048, f2); (30, true, 2048, f3)].
Lemma fd_parts : frag_of 0 2048 f1 true fd /\ frag_of 0 2048 f2 false fd /\ frag_of 0 2048 f3 false fd.
Proof. split; [|split]; eexists _, _, _; (split; [vm_compute; reflexivity|]); (split; [reflexivity|]); (split; [reflexivity|]); vm_compute; repeat split; discriminate. Qed.
