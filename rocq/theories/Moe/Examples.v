(** The theorems of C41 are not vacuous: two layers and twelve experts (so that "10" sorts after "9"). *)
From Verif.Base Require Import Py PyFacts PyStr.
From Verif.Arch Require Import Model Data ShippedProofs.
From Verif.Moe Require Import Model Spec NameProofs SplitProofs FusedProofs Props PropsQwen.
Local Open Scope string_scope.
Local Open Scope list_scope.

(** tensors as the expressions that made them *)
Inductive sym := Leaf (m nm : string) | Scale (s : Z) (t : sym) | Noise (tag : string) (s : Z) (t : sym) | Zeros (k : Z)
  | Stack (l : list sym) | Concat (l : list sym).
Definition sym_ops : ops sym Z :=
  {| o_scale := Scale; o_noise := Noise; o_cast := fun t => t; o_zeros := Zeros; o_stack := Stack; o_concat := Concat |}.
Definition two_layers : cfgval := CVObj [("num_hidden_layers", CVInt 2)].
Definition leafs (sfx : list string) (m : string) : tensors sym :=
  map (fun nm => (nm, Leaf m nm)) (["model.embed_tokens.weight"; "model.norm.weight"] ++ flat_map (fun i => map (layer_name i) sfx) [0%Z; 1%Z]).
Definition an_expert (k : nat) : expert Z :=
  {| ex_model := "m" ++ str_of_Z (Z.of_nat k); ex_positive := ["p"]; ex_negative := [];
     ex_noise := if Nat.eqb k 3 then Some 7%Z else None; ex_residual := if Nat.even k then Some 5%Z else None |}.
Definition twelve : list (expert Z) := map an_expert (seq 0 12).
Definition example_down : list sym :=
  map (fun k => let t := Leaf ("m" ++ str_of_Z (Z.of_nat k)) "model.layers.1.mlp.down_proj.weight" in
                let t := if Nat.eqb k 3 then Noise "model.layers.1.mlp.experts.3.w2.weight" 7%Z t else t in
                if Nat.even k then Scale 5%Z t else t) (seq 0 12).

Example C41_mixtral_nonvacuous :
  match mixtral_write sym_ops (leafs mistral_sfx) two_layers "base" twelve [Leaf "router" "0"; Leaf "router" "1"] with
  | Ok saves => List.length saves = 20%nat /\ dget saves "model.layers.1.mlp.experts.down_proj" = Some (Stack example_down)
                /\ dget saves "model.norm.weight" = Some (Leaf "base" "model.norm.weight")
  | Err _ => False
  end.
Proof. vm_compute. auto. Qed.
Example C41_qwen3_nonvacuous :
  match qwen3_write sym_ops (leafs qwen3_sfx) two_layers "base" twelve [Leaf "router" "0"; Leaf "router" "1"] with
  | Ok saves => List.length saves = 24%nat /\
      dget saves "model.layers.0.mlp.experts.gate_up_proj" =
        Some (Concat [Stack (map (fun k => let t := Leaf ("m" ++ str_of_Z (Z.of_nat k)) "model.layers.0.mlp.gate_proj.weight" in
                                           if Nat.eqb k 3 then Noise "model.layers.0.mlp.experts.3.gate_proj.weight" 7%Z t else t) (seq 0 12));
                      Stack (map (fun k => let t := Leaf ("m" ++ str_of_Z (Z.of_nat k)) "model.layers.0.mlp.up_proj.weight" in
                                           if Nat.eqb k 3 then Noise "model.layers.0.mlp.experts.3.up_proj.weight" 7%Z t else t) (seq 0 12))])
  | Err _ => False
  end.
Proof. vm_compute. auto. Qed.
Example C41_deepseek_nonvacuous :
  match deepseek_write sym_ops (leafs mistral_sfx) a_llama_default two_layers "base" twelve (Some (an_expert 4)) [Leaf "router" "0"; Leaf "router" "1"] with
  | Ok saves => List.length saves = 94%nat /\
      dget saves "model.layers.1.mlp.experts.11.up_proj.weight" = Some (Leaf "m11" "model.layers.1.mlp.up_proj.weight") /\
      dget saves "model.layers.1.mlp.shared_experts.down_proj.weight" = Some (Scale 5 (Leaf "m4" "model.layers.1.mlp.down_proj.weight"))
  | Err _ => False
  end.
Proof. vm_compute. auto. Qed.
Example C41_qwen2_nonvacuous :
  match qwen_write sym_ops (leafs mistral_sfx) two_layers {| hidden_size := 32; num_heads := 8; num_kv_heads := 2 |} "base" twelve (an_expert 4)
          [Leaf "router" "0"; Leaf "router" "1"] [Leaf "shared" "0"; Leaf "shared" "1"] with
  | Ok saves => List.length saves = 102%nat /\
      dget saves "model.layers.1.self_attn.k_proj.bias" = Some (Zeros 8) /\ dget saves "model.layers.1.self_attn.q_proj.bias" = Some (Zeros 32) /\
      dget saves "model.layers.1.mlp.shared_expert_gate.weight" = Some (Leaf "shared" "1")
  | Err _ => False
  end.
Proof. vm_compute. auto. Qed.
Example C41_shared_expert_refuted_nonvacuous :
  let s := {| ex_model := "other"; ex_positive := ["p"]; ex_negative := []; ex_noise := None; ex_residual := None |} : expert Z in
  ~ In (ex_model s) ("base" :: map ex_model twelve) /\
  deepseek_write sym_ops (leafs mistral_sfx) a_llama_default two_layers "base" twelve (Some s) [] = Err AttributeError.
Proof. vm_compute. split; [|reflexivity]. intros H. repeat (destruct H as [H|H]; [discriminate|]). exact H. Qed.
Example C41_gates_nonvacuous :
  let vec (e : expert Z) := [ex_model e ++ "/0"; ex_model e ++ "/1"]%string in
  let experts := [an_expert 1; an_expert 2] in
  match need_gates experts [an_expert 7] "hidden" with
  | Ok l => match gate_params vec 2 l with
            | Ok gates => map (split_gates experts) gates = [(["m1/0"; "m2/0"], ["m7/0"]); (["m1/1"; "m2/1"], ["m7/1"])]
            | Err _ => False
            end
  | Err _ => False
  end.
Proof. vm_compute. reflexivity. Qed.
