(** Proofs for C85: the validators of MergeOptions *)
From Verif.Base Require Import Py PyFacts.
From Verif.Devices Require Import Model.
Local Open Scope string_scope.
Local Open Scope list_scope.

(** the device that [handle_device_setting] leaves *)
Definition setting (cuda xpu : bool) (g : given_options) : string :=
  let auto := if cuda then "cuda" else if xpu then "xpu" else "cpu" in
  match g_device g with
  | None => if (g_cuda g || g_gpu_rich g)%bool then "cuda" else "cpu"
  | Some d => if eqb d "" then (if (g_cuda g || g_gpu_rich g)%bool then "cuda" else "cpu") else if eqb d "auto" then auto else d
  end.
Lemma match_empty {X} (d : string) (a : X) (b : X) : match d with "" => a | _ => b end = if eqb d "" then a else b.
Proof. destruct d as [|c d]; reflexivity. Qed.
Lemma match_auto {X} (d : string) (a : X) (b : X) : match d with "auto" => a | _ => b end = if eqb d "auto" then a else b.
Proof.
  destruct (eqb_spec d "auto") as [->|Hn]; [reflexivity|].
  repeat (destruct d as [|[[|] [|] [|] [|] [|] [|] [|] [|]] d]; try reflexivity; try congruence).
Qed.
Lemma handle_device_spec cuda xpu g : handle_device_setting cuda xpu g = with_device g (setting cuda xpu g).
Proof.
  destruct g as [[d|] cu gr lo re mu]; unfold handle_device_setting, setting; cbn [g_device g_cuda g_gpu_rich]; [|destruct (cu || gr)%bool; reflexivity].
  rewrite match_empty. destruct (eqb d "") eqn:E0; [destruct (cu || gr)%bool; reflexivity|]. cbn [g_device]. rewrite match_auto. destruct (eqb d "auto"); reflexivity.
Qed.
Lemma setting_proper cuda xpu g : setting cuda xpu g <> "".
Proof.
  unfold setting. destruct (g_device g) as [d|].
  - destruct (eqb_spec d "") as [_|Hn]; [now destruct (_ || _)%bool|]. destruct (eqb d "auto"); [|exact Hn]. destruct cuda, xpu; discriminate.
  - now destruct (_ || _)%bool.
Qed.
Lemma setting_given cuda xpu g d : g_device g = Some d -> d <> "" -> d <> "auto" -> setting cuda xpu g = d.
Proof. intros E H1 H2. unfold setting. rewrite E. apply eqb_neq in H1, H2. now rewrite H1, H2. Qed.
Lemma setting_not_auto cuda xpu g : setting cuda xpu g <> "auto".
Proof.
  unfold setting. destruct (g_device g) as [d|]; [|now destruct (_ || _)%bool].
  destruct (eqb d ""); [now destruct (_ || _)%bool|]. destruct (eqb_spec d "auto") as [_|Hn]; [destruct cuda, xpu; discriminate|exact Hn].
Qed.
Lemma setting_again cuda xpu g g' : g_device g' = Some (setting cuda xpu g) -> setting cuda xpu g' = setting cuda xpu g.
Proof. intros E. apply setting_given; [exact E|apply setting_proper|apply setting_not_auto]. Qed.
