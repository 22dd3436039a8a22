(** Transcription of the architecture definitions in mergekit/_data/architectures/*.json: for every module the
    pre-, layer- and post-weight templates (name, optional, aliases, tied names, is_embed, force_dtype), the layer
    count key and the overridden layer count. Generated mechanically from the JSON files. *)
From Verif.Base Require Import Py.
From Verif.Arch Require Import Model.
Local Open Scope list_scope.

Definition w (n : string) (e o : bool) (al : option (list string)) (dt : option string) (td : option (list string)) : weight_info :=
  {| wi_name := n; wi_embed := e; wi_optional := o; wi_aliases := al; wi_dtype := dt; wi_tied := td |}.

(** afmoe_partial.json, module default *)
Definition a_afmoe_partial_default : json_arch :=
  {| ja_pre := [w "model.embed_tokens.weight"%string true false (None) None (None)];
     ja_layer := [w "model.layers.${layer_index}.input_layernorm.weight"%string false false (None) None (None);
     w "model.layers.${layer_index}.pre_mlp_layernorm.weight"%string false false (None) None (None);
     w "model.layers.${layer_index}.mlp.down_proj.weight"%string false true (None) None (None);
     w "model.layers.${layer_index}.mlp.gate_proj.weight"%string false true (None) None (None);
     w "model.layers.${layer_index}.mlp.up_proj.weight"%string false true (None) None (None);
     w "model.layers.${layer_index}.mlp.shared_experts.down_proj.weight"%string false true (None) None (None);
     w "model.layers.${layer_index}.mlp.shared_experts.gate_proj.weight"%string false true (None) None (None);
     w "model.layers.${layer_index}.mlp.shared_experts.up_proj.weight"%string false true (None) None (None);
     w "model.layers.${layer_index}.mlp.expert_bias"%string false true (None) None (None);
     w "model.layers.${layer_index}.mlp.router.gate.weight"%string false true (None) None (None);
     w "model.layers.${layer_index}.post_mlp_layernorm.weight"%string false false (None) None (None);
     w "model.layers.${layer_index}.self_attn.q_norm.weight"%string false false (None) None (None);
     w "model.layers.${layer_index}.self_attn.q_proj.weight"%string false false (None) None (None);
     w "model.layers.${layer_index}.self_attn.k_norm.weight"%string false false (None) None (None);
     w "model.layers.${layer_index}.self_attn.k_proj.weight"%string false false (None) None (None);
     w "model.layers.${layer_index}.self_attn.o_proj.weight"%string false false (None) None (None);
     w "model.layers.${layer_index}.self_attn.v_proj.weight"%string false false (None) None (None);
     w "model.layers.${layer_index}.self_attn.gate_proj.weight"%string false false (None) None (None);
     w "model.layers.${layer_index}.post_attention_layernorm.weight"%string false false (None) None (None)];
     ja_post := [w "model.norm.weight"%string false false (None) None (None);
     w "lm_head.weight"%string true true (None) None (Some ["model.embed_tokens.weight"%string])];
     ja_key := Some "num_hidden_layers"%string; ja_override := None |}.

(** apertus.json, module default *)
Definition a_apertus_default : json_arch :=
  {| ja_pre := [w "model.embed_tokens.weight"%string true false (None) None (None)];
     ja_layer := [w "model.layers.${layer_index}.attention_layernorm.weight"%string false false (None) None (None);
     w "model.layers.${layer_index}.feedforward_layernorm.weight"%string false false (None) None (None);
     w "model.layers.${layer_index}.mlp.act_fn.alpha_n"%string false false (None) None (None);
     w "model.layers.${layer_index}.mlp.act_fn.alpha_p"%string false false (None) None (None);
     w "model.layers.${layer_index}.mlp.act_fn.beta"%string false false (None) None (None);
     w "model.layers.${layer_index}.mlp.act_fn.eps"%string false false (None) None (None);
     w "model.layers.${layer_index}.mlp.down_proj.weight"%string false false (None) None (None);
     w "model.layers.${layer_index}.mlp.up_proj.weight"%string false false (None) None (None);
     w "model.layers.${layer_index}.self_attn.k_norm.weight"%string false false (None) None (None);
     w "model.layers.${layer_index}.self_attn.k_proj.weight"%string false false (None) None (None);
     w "model.layers.${layer_index}.self_attn.q_norm.weight"%string false false (None) None (None);
     w "model.layers.${layer_index}.self_attn.q_proj.weight"%string false false (None) None (None);
     w "model.layers.${layer_index}.self_attn.v_proj.weight"%string false false (None) None (None);
     w "model.layers.${layer_index}.self_attn.o_proj.weight"%string false false (None) None (None)];
     ja_post := [w "model.norm.weight"%string false false (None) None (None);
     w "lm_head.weight"%string true true (None) None (Some ["model.embed_tokens.weight"%string])];
     ja_key := Some "num_hidden_layers"%string; ja_override := None |}.

(** arcee.json, module default *)
Definition a_arcee_default : json_arch :=
  {| ja_pre := [w "model.embed_tokens.weight"%string true false (None) None (None)];
     ja_layer := [w "model.layers.${layer_index}.input_layernorm.weight"%string false false (None) None (None);
     w "model.layers.${layer_index}.mlp.down_proj.weight"%string false false (None) None (None);
     w "model.layers.${layer_index}.mlp.up_proj.weight"%string false false (None) None (None);
     w "model.layers.${layer_index}.post_attention_layernorm.weight"%string false false (None) None (None);
     w "model.layers.${layer_index}.self_attn.k_proj.weight"%string false false (None) None (None);
     w "model.layers.${layer_index}.self_attn.o_proj.weight"%string false false (None) None (None);
     w "model.layers.${layer_index}.self_attn.q_proj.weight"%string false false (None) None (None);
     w "model.layers.${layer_index}.self_attn.v_proj.weight"%string false false (None) None (None)];
     ja_post := [w "model.norm.weight"%string false false (None) None (None);
     w "lm_head.weight"%string true true (None) None (Some ["model.embed_tokens.weight"%string])];
     ja_key := Some "num_hidden_layers"%string; ja_override := None |}.

(** baichuan.json, module default *)
Definition a_baichuan_default : json_arch :=
  {| ja_pre := [w "model.embed_tokens.weight"%string true false (None) None (None)];
     ja_layer := [w "model.layers.${layer_index}.input_layernorm.weight"%string false false (None) None (None);
     w "model.layers.${layer_index}.self_attn.W_pack.weight"%string false false (None) None (None);
     w "model.layers.${layer_index}.self_attn.o_proj.weight"%string false false (None) None (None);
     w "model.layers.${layer_index}.post_attention_layernorm.weight"%string false false (None) None (None);
     w "model.layers.${layer_index}.mlp.gate_proj.weight"%string false false (None) None (None);
     w "model.layers.${layer_index}.mlp.down_proj.weight"%string false false (None) None (None);
     w "model.layers.${layer_index}.mlp.up_proj.weight"%string false false (None) None (None)];
     ja_post := [w "model.norm.weight"%string false false (None) None (None);
     w "lm_head.weight"%string true false (None) None (None)];
     ja_key := Some "num_hidden_layers"%string; ja_override := None |}.

(** bert-masked-lm.json, module default *)
Definition a_bert_masked_lm_default : json_arch :=
  {| ja_pre := [w "bert.embeddings.position_embeddings.weight"%string false false (None) None (None);
     w "bert.embeddings.token_type_embeddings.weight"%string false false (None) None (None);
     w "bert.embeddings.word_embeddings.weight"%string true false (None) None (None);
     w "bert.embeddings.LayerNorm.bias"%string false false (Some ["bert.embeddings.LayerNorm.beta"%string]) None (None);
     w "bert.embeddings.LayerNorm.weight"%string false false (Some ["bert.embeddings.LayerNorm.gamma"%string]) None (None);
     w "bert.embeddings.position_ids"%string false true (None) (Some "int64"%string) (None)];
     ja_layer := [w "bert.encoder.layer.${layer_index}.attention.self.query.weight"%string false false (None) None (None);
     w "bert.encoder.layer.${layer_index}.attention.self.query.bias"%string false false (None) None (None);
     w "bert.encoder.layer.${layer_index}.attention.self.key.weight"%string false false (None) None (None);
     w "bert.encoder.layer.${layer_index}.attention.self.key.bias"%string false false (None) None (None);
     w "bert.encoder.layer.${layer_index}.attention.self.value.weight"%string false false (None) None (None);
     w "bert.encoder.layer.${layer_index}.attention.self.value.bias"%string false false (None) None (None);
     w "bert.encoder.layer.${layer_index}.attention.output.dense.weight"%string false false (None) None (None);
     w "bert.encoder.layer.${layer_index}.attention.output.dense.bias"%string false false (None) None (None);
     w "bert.encoder.layer.${layer_index}.attention.output.LayerNorm.bias"%string false false (Some ["bert.encoder.layer.${layer_index}.attention.output.LayerNorm.beta"%string]) None (None);
     w "bert.encoder.layer.${layer_index}.attention.output.LayerNorm.weight"%string false false (Some ["bert.encoder.layer.${layer_index}.attention.output.LayerNorm.gamma"%string]) None (None);
     w "bert.encoder.layer.${layer_index}.intermediate.dense.weight"%string false false (None) None (None);
     w "bert.encoder.layer.${layer_index}.intermediate.dense.bias"%string false false (None) None (None);
     w "bert.encoder.layer.${layer_index}.output.dense.weight"%string false false (None) None (None);
     w "bert.encoder.layer.${layer_index}.output.dense.bias"%string false false (None) None (None);
     w "bert.encoder.layer.${layer_index}.output.LayerNorm.bias"%string false false (Some ["bert.encoder.layer.${layer_index}.output.LayerNorm.beta"%string]) None (None);
     w "bert.encoder.layer.${layer_index}.output.LayerNorm.weight"%string false false (Some ["bert.encoder.layer.${layer_index}.output.LayerNorm.gamma"%string]) None (None)];
     ja_post := [w "bert.pooler.dense.weight"%string false false (None) None (None);
     w "bert.pooler.dense.bias"%string false false (None) None (None);
     w "cls.predictions.bias"%string false false (None) None (None);
     w "cls.predictions.decoder.weight"%string true true (None) None (Some ["bert.embeddings.word_embeddings.weight"%string])];
     ja_key := Some "num_hidden_layers"%string; ja_override := None |}.

(** bert-sequence-classification.json, module default *)
Definition a_bert_sequence_classification_default : json_arch :=
  {| ja_pre := [w "bert.embeddings.position_embeddings.weight"%string false false (None) None (None);
     w "bert.embeddings.token_type_embeddings.weight"%string false false (None) None (None);
     w "bert.embeddings.word_embeddings.weight"%string true false (None) None (None);
     w "bert.embeddings.LayerNorm.bias"%string false false (Some ["bert.embeddings.LayerNorm.beta"%string]) None (None);
     w "bert.embeddings.LayerNorm.weight"%string false false (Some ["bert.embeddings.LayerNorm.gamma"%string]) None (None);
     w "bert.embeddings.position_ids"%string false true (None) (Some "int64"%string) (None)];
     ja_layer := [w "bert.encoder.layer.${layer_index}.attention.self.query.weight"%string false false (None) None (None);
     w "bert.encoder.layer.${layer_index}.attention.self.query.bias"%string false false (None) None (None);
     w "bert.encoder.layer.${layer_index}.attention.self.key.weight"%string false false (None) None (None);
     w "bert.encoder.layer.${layer_index}.attention.self.key.bias"%string false false (None) None (None);
     w "bert.encoder.layer.${layer_index}.attention.self.value.weight"%string false false (None) None (None);
     w "bert.encoder.layer.${layer_index}.attention.self.value.bias"%string false false (None) None (None);
     w "bert.encoder.layer.${layer_index}.attention.output.dense.weight"%string false false (None) None (None);
     w "bert.encoder.layer.${layer_index}.attention.output.dense.bias"%string false false (None) None (None);
     w "bert.encoder.layer.${layer_index}.attention.output.LayerNorm.bias"%string false false (Some ["bert.encoder.layer.${layer_index}.attention.output.LayerNorm.beta"%string]) None (None);
     w "bert.encoder.layer.${layer_index}.attention.output.LayerNorm.weight"%string false false (Some ["bert.encoder.layer.${layer_index}.attention.output.LayerNorm.gamma"%string]) None (None);
     w "bert.encoder.layer.${layer_index}.intermediate.dense.weight"%string false false (None) None (None);
     w "bert.encoder.layer.${layer_index}.intermediate.dense.bias"%string false false (None) None (None);
     w "bert.encoder.layer.${layer_index}.output.dense.weight"%string false false (None) None (None);
     w "bert.encoder.layer.${layer_index}.output.dense.bias"%string false false (None) None (None);
     w "bert.encoder.layer.${layer_index}.output.LayerNorm.bias"%string false false (Some ["bert.encoder.layer.${layer_index}.output.LayerNorm.beta"%string]) None (None);
     w "bert.encoder.layer.${layer_index}.output.LayerNorm.weight"%string false false (Some ["bert.encoder.layer.${layer_index}.output.LayerNorm.gamma"%string]) None (None)];
     ja_post := [w "bert.pooler.dense.weight"%string false true (None) None (None);
     w "bert.pooler.dense.bias"%string false true (None) None (None);
     w "classifier.bias"%string false false (None) None (None);
     w "classifier.weight"%string false false (None) None (None)];
     ja_key := Some "num_hidden_layers"%string; ja_override := None |}.

(** bert.json, module default *)
Definition a_bert_default : json_arch :=
  {| ja_pre := [w "embeddings.position_embeddings.weight"%string false false (Some ["bert.embeddings.position_embeddings.weight"%string]) None (None);
     w "embeddings.token_type_embeddings.weight"%string false false (Some ["bert.embeddings.token_type_embeddings.weight"%string]) None (None);
     w "embeddings.word_embeddings.weight"%string true false (Some ["bert.embeddings.word_embeddings.weight"%string]) None (None);
     w "embeddings.LayerNorm.bias"%string false false (Some ["embeddings.LayerNorm.beta"%string; "bert.embeddings.LayerNorm.bias"%string; "bert.embeddings.LayerNorm.beta"%string]) None (None);
     w "embeddings.LayerNorm.weight"%string false false (Some ["embeddings.LayerNorm.gamma"%string; "bert.embeddings.LayerNorm.weight"%string; "bert.embeddings.LayerNorm.gamma"%string; "bert.embeddings.LayerNorm.weight"%string]) None (None);
     w "embeddings.position_ids"%string false true (Some ["bert.embeddings.position_ids"%string]) (Some "int64"%string) (None)];
     ja_layer := [w "encoder.layer.${layer_index}.attention.self.query.weight"%string false false (Some ["bert.encoder.layer.${layer_index}.attention.self.query.weight"%string]) None (None);
     w "encoder.layer.${layer_index}.attention.self.query.bias"%string false false (Some ["bert.encoder.layer.${layer_index}.attention.self.query.bias"%string]) None (None);
     w "encoder.layer.${layer_index}.attention.self.key.weight"%string false false (Some ["bert.encoder.layer.${layer_index}.attention.self.key.weight"%string]) None (None);
     w "encoder.layer.${layer_index}.attention.self.key.bias"%string false false (Some ["bert.encoder.layer.${layer_index}.attention.self.key.bias"%string]) None (None);
     w "encoder.layer.${layer_index}.attention.self.value.weight"%string false false (Some ["bert.encoder.layer.${layer_index}.attention.self.value.weight"%string]) None (None);
     w "encoder.layer.${layer_index}.attention.self.value.bias"%string false false (Some ["bert.encoder.layer.${layer_index}.attention.self.value.bias"%string]) None (None);
     w "encoder.layer.${layer_index}.attention.output.dense.weight"%string false false (Some ["bert.encoder.layer.${layer_index}.attention.output.dense.weight"%string]) None (None);
     w "encoder.layer.${layer_index}.attention.output.dense.bias"%string false false (Some ["bert.encoder.layer.${layer_index}.attention.output.dense.bias"%string]) None (None);
     w "encoder.layer.${layer_index}.attention.output.LayerNorm.bias"%string false false (Some ["encoder.layer.${layer_index}.attention.output.LayerNorm.beta"%string; "bert.encoder.layer.${layer_index}.attention.output.LayerNorm.bias"%string; "bert.encoder.layer.${layer_index}.attention.output.LayerNorm.beta"%string]) None (None);
     w "encoder.layer.${layer_index}.attention.output.LayerNorm.weight"%string false false (Some ["encoder.layer.${layer_index}.attention.output.LayerNorm.gamma"%string; "bert.encoder.layer.${layer_index}.attention.output.LayerNorm.weight"%string; "bert.encoder.layer.${layer_index}.attention.output.LayerNorm.gamma"%string]) None (None);
     w "encoder.layer.${layer_index}.intermediate.dense.weight"%string false false (Some ["bert.encoder.layer.${layer_index}.intermediate.dense.weight"%string]) None (None);
     w "encoder.layer.${layer_index}.intermediate.dense.bias"%string false false (Some ["bert.encoder.layer.${layer_index}.intermediate.dense.bias"%string]) None (None);
     w "encoder.layer.${layer_index}.output.dense.weight"%string false false (Some ["bert.encoder.layer.${layer_index}.output.dense.weight"%string]) None (None);
     w "encoder.layer.${layer_index}.output.dense.bias"%string false false (Some ["bert.encoder.layer.${layer_index}.output.dense.bias"%string]) None (None);
     w "encoder.layer.${layer_index}.output.LayerNorm.bias"%string false false (Some ["encoder.layer.${layer_index}.output.LayerNorm.beta"%string; "bert.encoder.layer.${layer_index}.output.LayerNorm.bias"%string; "bert.encoder.layer.${layer_index}.output.LayerNorm.beta"%string]) None (None);
     w "encoder.layer.${layer_index}.output.LayerNorm.weight"%string false false (Some ["encoder.layer.${layer_index}.output.LayerNorm.gamma"%string; "bert.encoder.layer.${layer_index}.output.LayerNorm.weight"%string; "bert.encoder.layer.${layer_index}.output.LayerNorm.gamma"%string]) None (None)];
     ja_post := [w "pooler.dense.weight"%string false false (Some ["bert.pooler.dense.weight"%string]) None (None);
     w "pooler.dense.bias"%string false false (Some ["bert.pooler.dense.bias"%string]) None (None)];
     ja_key := Some "num_hidden_layers"%string; ja_override := None |}.

(** chatglm.json, module default *)
Definition a_chatglm_default : json_arch :=
  {| ja_pre := [w "transformer.embedding.word_embeddings.weight"%string true false (None) None (None);
     w "transformer.rotary_pos_emb.inv_freq"%string false false (None) None (None)];
     ja_layer := [w "transformer.encoder.layers.${layer_index}.input_layernorm.weight"%string false false (None) None (None);
     w "transformer.encoder.layers.${layer_index}.mlp.dense_4h_to_h.weight"%string false false (None) None (None);
     w "transformer.encoder.layers.${layer_index}.mlp.dense_h_to_4h.weight"%string false false (None) None (None);
     w "transformer.encoder.layers.${layer_index}.post_attention_layernorm.weight"%string false false (None) None (None);
     w "transformer.encoder.layers.${layer_index}.self_attention.dense.weight"%string false false (None) None (None);
     w "transformer.encoder.layers.${layer_index}.self_attention.query_key_value.bias"%string false false (None) None (None);
     w "transformer.encoder.layers.${layer_index}.self_attention.query_key_value.weight"%string false false (None) None (None)];
     ja_post := [w "transformer.encoder.final_layernorm.weight"%string false false (None) None (None);
     w "transformer.output_layer.weight"%string true false (None) None (None)];
     ja_key := Some "num_hidden_layers"%string; ja_override := None |}.

(** cohere.json, module default *)
Definition a_cohere_default : json_arch :=
  {| ja_pre := [w "model.embed_tokens.weight"%string true false (None) None (None)];
     ja_layer := [w "model.layers.${layer_index}.input_layernorm.weight"%string false false (None) None (None);
     w "model.layers.${layer_index}.mlp.down_proj.weight"%string false false (None) None (None);
     w "model.layers.${layer_index}.mlp.gate_proj.weight"%string false false (None) None (None);
     w "model.layers.${layer_index}.mlp.up_proj.weight"%string false false (None) None (None);
     w "model.layers.${layer_index}.self_attn.q_norm.weight"%string false false (None) None (None);
     w "model.layers.${layer_index}.self_attn.q_proj.weight"%string false false (None) None (None);
     w "model.layers.${layer_index}.self_attn.k_norm.weight"%string false false (None) None (None);
     w "model.layers.${layer_index}.self_attn.k_proj.weight"%string false false (None) None (None);
     w "model.layers.${layer_index}.self_attn.v_proj.weight"%string false false (None) None (None);
     w "model.layers.${layer_index}.self_attn.o_proj.weight"%string false false (None) None (None)];
     ja_post := [w "model.norm.weight"%string false false (None) None (None);
     w "lm_head.weight"%string true true (None) None (None)];
     ja_key := Some "num_hidden_layers"%string; ja_override := None |}.

(** cohere2.json, module default *)
Definition a_cohere2_default : json_arch :=
  {| ja_pre := [w "model.embed_tokens.weight"%string true false (None) None (None)];
     ja_layer := [w "model.layers.${layer_index}.self_attn.q_proj.weight"%string false false (None) None (None);
     w "model.layers.${layer_index}.self_attn.k_proj.weight"%string false false (None) None (None);
     w "model.layers.${layer_index}.self_attn.v_proj.weight"%string false false (None) None (None);
     w "model.layers.${layer_index}.self_attn.o_proj.weight"%string false false (None) None (None);
     w "model.layers.${layer_index}.mlp.gate_proj.weight"%string false false (None) None (None);
     w "model.layers.${layer_index}.mlp.up_proj.weight"%string false false (None) None (None);
     w "model.layers.${layer_index}.mlp.down_proj.weight"%string false false (None) None (None);
     w "model.layers.${layer_index}.input_layernorm.weight"%string false false (None) None (None)];
     ja_post := [w "model.norm.weight"%string false false (None) None (None);
     w "lm_head.weight"%string true true (None) None (None)];
     ja_key := Some "num_hidden_layers"%string; ja_override := None |}.

(** distilbert-masked-lm.json, module default *)
Definition a_distilbert_masked_lm_default : json_arch :=
  {| ja_pre := [w "distilbert.embeddings.position_embeddings.weight"%string false false (None) None (None);
     w "distilbert.embeddings.word_embeddings.weight"%string true false (None) None (None);
     w "distilbert.embeddings.LayerNorm.bias"%string false false (Some ["distilbert.embeddings.LayerNorm.beta"%string]) None (None);
     w "distilbert.embeddings.LayerNorm.weight"%string false false (Some ["distilbert.embeddings.LayerNorm.gamma"%string]) None (None)];
     ja_layer := [w "distilbert.transformer.layer.${layer_index}.attention.k_lin.weight"%string false false (None) None (None);
     w "distilbert.transformer.layer.${layer_index}.attention.k_lin.bias"%string false false (None) None (None);
     w "distilbert.transformer.layer.${layer_index}.attention.q_lin.weight"%string false false (None) None (None);
     w "distilbert.transformer.layer.${layer_index}.attention.q_lin.bias"%string false false (None) None (None);
     w "distilbert.transformer.layer.${layer_index}.attention.v_lin.weight"%string false false (None) None (None);
     w "distilbert.transformer.layer.${layer_index}.attention.v_lin.bias"%string false false (None) None (None);
     w "distilbert.transformer.layer.${layer_index}.attention.out_lin.weight"%string false false (None) None (None);
     w "distilbert.transformer.layer.${layer_index}.attention.out_lin.bias"%string false false (None) None (None);
     w "distilbert.transformer.layer.${layer_index}.sa_layer_norm.bias"%string false false (None) None (None);
     w "distilbert.transformer.layer.${layer_index}.sa_layer_norm.weight"%string false false (None) None (None);
     w "distilbert.transformer.layer.${layer_index}.ffn.lin1.weight"%string false false (None) None (None);
     w "distilbert.transformer.layer.${layer_index}.ffn.lin1.bias"%string false false (None) None (None);
     w "distilbert.transformer.layer.${layer_index}.ffn.lin2.weight"%string false false (None) None (None);
     w "distilbert.transformer.layer.${layer_index}.ffn.lin2.bias"%string false false (None) None (None);
     w "distilbert.transformer.layer.${layer_index}.output_layer_norm.bias"%string false false (None) None (None);
     w "distilbert.transformer.layer.${layer_index}.output_layer_norm.weight"%string false false (None) None (None)];
     ja_post := [w "vocab_transform.weight"%string false false (None) None (None);
     w "vocab_transform.bias"%string false false (None) None (None);
     w "vocab_layer_norm.bias"%string false false (None) None (None);
     w "vocab_layer_norm.weight"%string false false (None) None (None);
     w "vocab_projector.weight"%string true true (None) None (Some ["distilbert.embeddings.word_embeddings.weight"%string]);
     w "vocab_projector.bias"%string false false (None) None (None)];
     ja_key := Some "num_hidden_layers"%string; ja_override := None |}.

(** distilbert-sequence-classification.json, module default *)
Definition a_distilbert_sequence_classification_default : json_arch :=
  {| ja_pre := [w "distilbert.embeddings.position_embeddings.weight"%string false false (None) None (None);
     w "distilbert.embeddings.word_embeddings.weight"%string true false (None) None (None);
     w "distilbert.embeddings.LayerNorm.bias"%string false false (Some ["distilbert.embeddings.LayerNorm.beta"%string]) None (None);
     w "distilbert.embeddings.LayerNorm.weight"%string false false (Some ["distilbert.embeddings.LayerNorm.gamma"%string]) None (None)];
     ja_layer := [w "distilbert.transformer.layer.${layer_index}.attention.k_lin.weight"%string false false (None) None (None);
     w "distilbert.transformer.layer.${layer_index}.attention.k_lin.bias"%string false false (None) None (None);
     w "distilbert.transformer.layer.${layer_index}.attention.q_lin.weight"%string false false (None) None (None);
     w "distilbert.transformer.layer.${layer_index}.attention.q_lin.bias"%string false false (None) None (None);
     w "distilbert.transformer.layer.${layer_index}.attention.v_lin.weight"%string false false (None) None (None);
     w "distilbert.transformer.layer.${layer_index}.attention.v_lin.bias"%string false false (None) None (None);
     w "distilbert.transformer.layer.${layer_index}.attention.out_lin.weight"%string false false (None) None (None);
     w "distilbert.transformer.layer.${layer_index}.attention.out_lin.bias"%string false false (None) None (None);
     w "distilbert.transformer.layer.${layer_index}.sa_layer_norm.bias"%string false false (None) None (None);
     w "distilbert.transformer.layer.${layer_index}.sa_layer_norm.weight"%string false false (None) None (None);
     w "distilbert.transformer.layer.${layer_index}.ffn.lin1.weight"%string false false (None) None (None);
     w "distilbert.transformer.layer.${layer_index}.ffn.lin1.bias"%string false false (None) None (None);
     w "distilbert.transformer.layer.${layer_index}.ffn.lin2.weight"%string false false (None) None (None);
     w "distilbert.transformer.layer.${layer_index}.ffn.lin2.bias"%string false false (None) None (None);
     w "distilbert.transformer.layer.${layer_index}.output_layer_norm.bias"%string false false (None) None (None);
     w "distilbert.transformer.layer.${layer_index}.output_layer_norm.weight"%string false false (None) None (None)];
     ja_post := [w "classifier.bias"%string false false (None) None (None);
     w "classifier.weight"%string false false (None) None (None);
     w "pre_classifier.bias"%string false false (None) None (None);
     w "pre_classifier.weight"%string false false (None) None (None)];
     ja_key := Some "num_hidden_layers"%string; ja_override := None |}.

(** distilbert-token-classification.json, module default *)
Definition a_distilbert_token_classification_default : json_arch :=
  {| ja_pre := [w "distilbert.embeddings.position_embeddings.weight"%string false false (None) None (None);
     w "distilbert.embeddings.word_embeddings.weight"%string true false (None) None (None);
     w "distilbert.embeddings.LayerNorm.bias"%string false false (Some ["distilbert.embeddings.LayerNorm.beta"%string]) None (None);
     w "distilbert.embeddings.LayerNorm.weight"%string false false (Some ["distilbert.embeddings.LayerNorm.gamma"%string]) None (None)];
     ja_layer := [w "distilbert.transformer.layer.${layer_index}.attention.k_lin.weight"%string false false (None) None (None);
     w "distilbert.transformer.layer.${layer_index}.attention.k_lin.bias"%string false false (None) None (None);
     w "distilbert.transformer.layer.${layer_index}.attention.q_lin.weight"%string false false (None) None (None);
     w "distilbert.transformer.layer.${layer_index}.attention.q_lin.bias"%string false false (None) None (None);
     w "distilbert.transformer.layer.${layer_index}.attention.v_lin.weight"%string false false (None) None (None);
     w "distilbert.transformer.layer.${layer_index}.attention.v_lin.bias"%string false false (None) None (None);
     w "distilbert.transformer.layer.${layer_index}.attention.out_lin.weight"%string false false (None) None (None);
     w "distilbert.transformer.layer.${layer_index}.attention.out_lin.bias"%string false false (None) None (None);
     w "distilbert.transformer.layer.${layer_index}.sa_layer_norm.bias"%string false false (None) None (None);
     w "distilbert.transformer.layer.${layer_index}.sa_layer_norm.weight"%string false false (None) None (None);
     w "distilbert.transformer.layer.${layer_index}.ffn.lin1.weight"%string false false (None) None (None);
     w "distilbert.transformer.layer.${layer_index}.ffn.lin1.bias"%string false false (None) None (None);
     w "distilbert.transformer.layer.${layer_index}.ffn.lin2.weight"%string false false (None) None (None);
     w "distilbert.transformer.layer.${layer_index}.ffn.lin2.bias"%string false false (None) None (None);
     w "distilbert.transformer.layer.${layer_index}.output_layer_norm.bias"%string false false (None) None (None);
     w "distilbert.transformer.layer.${layer_index}.output_layer_norm.weight"%string false false (None) None (None)];
     ja_post := [w "classifier.bias"%string false false (None) None (None);
     w "classifier.weight"%string false false (None) None (None)];
     ja_key := Some "num_hidden_layers"%string; ja_override := None |}.

(** distilbert.json, module default *)
Definition a_distilbert_default : json_arch :=
  {| ja_pre := [w "distilbert.embeddings.position_embeddings.weight"%string false false (None) None (None);
     w "distilbert.embeddings.word_embeddings.weight"%string true false (None) None (None);
     w "distilbert.embeddings.LayerNorm.bias"%string false false (Some ["distilbert.embeddings.LayerNorm.beta"%string]) None (None);
     w "distilbert.embeddings.LayerNorm.weight"%string false false (Some ["distilbert.embeddings.LayerNorm.gamma"%string]) None (None)];
     ja_layer := [w "distilbert.transformer.layer.${layer_index}.attention.k_lin.weight"%string false false (None) None (None);
     w "distilbert.transformer.layer.${layer_index}.attention.k_lin.bias"%string false false (None) None (None);
     w "distilbert.transformer.layer.${layer_index}.attention.q_lin.weight"%string false false (None) None (None);
     w "distilbert.transformer.layer.${layer_index}.attention.q_lin.bias"%string false false (None) None (None);
     w "distilbert.transformer.layer.${layer_index}.attention.v_lin.weight"%string false false (None) None (None);
     w "distilbert.transformer.layer.${layer_index}.attention.v_lin.bias"%string false false (None) None (None);
     w "distilbert.transformer.layer.${layer_index}.attention.out_lin.weight"%string false false (None) None (None);
     w "distilbert.transformer.layer.${layer_index}.attention.out_lin.bias"%string false false (None) None (None);
     w "distilbert.transformer.layer.${layer_index}.sa_layer_norm.bias"%string false false (None) None (None);
     w "distilbert.transformer.layer.${layer_index}.sa_layer_norm.weight"%string false false (None) None (None);
     w "distilbert.transformer.layer.${layer_index}.ffn.lin1.weight"%string false false (None) None (None);
     w "distilbert.transformer.layer.${layer_index}.ffn.lin1.bias"%string false false (None) None (None);
     w "distilbert.transformer.layer.${layer_index}.ffn.lin2.weight"%string false false (None) None (None);
     w "distilbert.transformer.layer.${layer_index}.ffn.lin2.bias"%string false false (None) None (None);
     w "distilbert.transformer.layer.${layer_index}.output_layer_norm.bias"%string false false (None) None (None);
     w "distilbert.transformer.layer.${layer_index}.output_layer_norm.weight"%string false false (None) None (None)];
     ja_post := [];
     ja_key := Some "num_hidden_layers"%string; ja_override := None |}.

(** exaone.json, module default *)
Definition a_exaone_default : json_arch :=
  {| ja_pre := [w "transformer.wte.weight"%string true false (None) None (None)];
     ja_layer := [w "transformer.h.${layer_index}.ln_1.weight"%string false false (None) None (None);
     w "transformer.h.${layer_index}.attn.attention.q_proj.weight"%string false false (None) None (None);
     w "transformer.h.${layer_index}.attn.attention.k_proj.weight"%string false false (None) None (None);
     w "transformer.h.${layer_index}.attn.attention.v_proj.weight"%string false false (None) None (None);
     w "transformer.h.${layer_index}.attn.attention.out_proj.weight"%string false false (None) None (None);
     w "transformer.h.${layer_index}.ln_2.weight"%string false false (None) None (None);
     w "transformer.h.${layer_index}.mlp.c_fc_0.weight"%string false false (None) None (None);
     w "transformer.h.${layer_index}.mlp.c_fc_1.weight"%string false false (None) None (None);
     w "transformer.h.${layer_index}.mlp.c_proj.weight"%string false false (None) None (None)];
     ja_post := [w "transformer.ln_f.weight"%string false false (None) None (None);
     w "lm_head.weight"%string true false (None) None (None)];
     ja_key := Some "num_hidden_layers"%string; ja_override := None |}.

(** falcon.json, module default *)
Definition a_falcon_default : json_arch :=
  {| ja_pre := [w "transformer.word_embeddings.weight"%string true false (None) None (None)];
     ja_layer := [w "transformer.h.${layer_index}.ln_attn.bias"%string false false (None) None (None);
     w "transformer.h.${layer_index}.ln_attn.weight"%string false false (None) None (None);
     w "transformer.h.${layer_index}.ln_mlp.bias"%string false false (None) None (None);
     w "transformer.h.${layer_index}.ln_mlp.weight"%string false false (None) None (None);
     w "transformer.h.${layer_index}.mlp.dense_4h_to_h.weight"%string false false (None) None (None);
     w "transformer.h.${layer_index}.mlp.dense_h_to_4h.weight"%string false false (None) None (None);
     w "transformer.h.${layer_index}.self_attention.dense.weight"%string false false (None) None (None);
     w "transformer.h.${layer_index}.self_attention.query_key_value.weight"%string false false (None) None (None)];
     ja_post := [w "transformer.ln_f.weight"%string false false (None) None (None);
     w "transformer.ln_f.bias"%string false false (None) None (None);
     w "lm_head.weight"%string true false (None) None (None)];
     ja_key := Some "num_hidden_layers"%string; ja_override := None |}.

(** gemma.json, module default *)
Definition a_gemma_default : json_arch :=
  {| ja_pre := [w "model.embed_tokens.weight"%string true false (None) None (None)];
     ja_layer := [w "model.layers.${layer_index}.input_layernorm.weight"%string false false (None) None (None);
     w "model.layers.${layer_index}.self_attn.q_proj.weight"%string false false (None) None (None);
     w "model.layers.${layer_index}.self_attn.k_proj.weight"%string false false (None) None (None);
     w "model.layers.${layer_index}.self_attn.v_proj.weight"%string false false (None) None (None);
     w "model.layers.${layer_index}.self_attn.o_proj.weight"%string false false (None) None (None);
     w "model.layers.${layer_index}.post_attention_layernorm.weight"%string false false (None) None (None);
     w "model.layers.${layer_index}.mlp.up_proj.weight"%string false false (None) None (None);
     w "model.layers.${layer_index}.mlp.gate_proj.weight"%string false false (None) None (None);
     w "model.layers.${layer_index}.mlp.down_proj.weight"%string false false (None) None (None)];
     ja_post := [w "model.norm.weight"%string false false (None) None (None)];
     ja_key := Some "num_hidden_layers"%string; ja_override := None |}.

(** gemma2.json, module default *)
Definition a_gemma2_default : json_arch :=
  {| ja_pre := [w "model.embed_tokens.weight"%string true false (None) None (None)];
     ja_layer := [w "model.layers.${layer_index}.input_layernorm.weight"%string false false (None) None (None);
     w "model.layers.${layer_index}.self_attn.q_proj.weight"%string false false (None) None (None);
     w "model.layers.${layer_index}.self_attn.k_proj.weight"%string false false (None) None (None);
     w "model.layers.${layer_index}.self_attn.v_proj.weight"%string false false (None) None (None);
     w "model.layers.${layer_index}.self_attn.o_proj.weight"%string false false (None) None (None);
     w "model.layers.${layer_index}.post_attention_layernorm.weight"%string false false (None) None (None);
     w "model.layers.${layer_index}.pre_feedforward_layernorm.weight"%string false false (None) None (None);
     w "model.layers.${layer_index}.mlp.up_proj.weight"%string false false (None) None (None);
     w "model.layers.${layer_index}.mlp.gate_proj.weight"%string false false (None) None (None);
     w "model.layers.${layer_index}.mlp.down_proj.weight"%string false false (None) None (None);
     w "model.layers.${layer_index}.post_feedforward_layernorm.weight"%string false false (None) None (None)];
     ja_post := [w "model.norm.weight"%string false false (None) None (None);
     w "lm_head.weight"%string true true (None) None (Some ["model.embed_tokens.weight"%string])];
     ja_key := Some "num_hidden_layers"%string; ja_override := None |}.

(** gemma3.json, module default *)
Definition a_gemma3_default : json_arch :=
  {| ja_pre := [w "model.embed_tokens.weight"%string true false (None) None (None)];
     ja_layer := [w "model.layers.${layer_index}.input_layernorm.weight"%string false false (None) None (None);
     w "model.layers.${layer_index}.self_attn.q_proj.weight"%string false false (None) None (None);
     w "model.layers.${layer_index}.self_attn.q_norm.weight"%string false false (None) None (None);
     w "model.layers.${layer_index}.self_attn.k_proj.weight"%string false false (None) None (None);
     w "model.layers.${layer_index}.self_attn.k_norm.weight"%string false false (None) None (None);
     w "model.layers.${layer_index}.self_attn.v_proj.weight"%string false false (None) None (None);
     w "model.layers.${layer_index}.self_attn.o_proj.weight"%string false false (None) None (None);
     w "model.layers.${layer_index}.post_attention_layernorm.weight"%string false false (None) None (None);
     w "model.layers.${layer_index}.pre_feedforward_layernorm.weight"%string false false (None) None (None);
     w "model.layers.${layer_index}.mlp.up_proj.weight"%string false false (None) None (None);
     w "model.layers.${layer_index}.mlp.gate_proj.weight"%string false false (None) None (None);
     w "model.layers.${layer_index}.mlp.down_proj.weight"%string false false (None) None (None);
     w "model.layers.${layer_index}.post_feedforward_layernorm.weight"%string false false (None) None (None)];
     ja_post := [w "model.norm.weight"%string false false (None) None (None);
     w "lm_head.weight"%string true true (None) None (Some ["model.embed_tokens.weight"%string])];
     ja_key := Some "num_hidden_layers"%string; ja_override := None |}.

(** gemma3vl.json, module text_decoder *)
Definition a_gemma3vl_text_decoder : json_arch :=
  {| ja_pre := [w "model.embed_tokens.weight"%string true false (None) None (None)];
     ja_layer := [w "model.layers.${layer_index}.input_layernorm.weight"%string false false (None) None (None);
     w "model.layers.${layer_index}.self_attn.q_proj.weight"%string false false (None) None (None);
     w "model.layers.${layer_index}.self_attn.q_norm.weight"%string false false (None) None (None);
     w "model.layers.${layer_index}.self_attn.k_proj.weight"%string false false (None) None (None);
     w "model.layers.${layer_index}.self_attn.k_norm.weight"%string false false (None) None (None);
     w "model.layers.${layer_index}.self_attn.v_proj.weight"%string false false (None) None (None);
     w "model.layers.${layer_index}.self_attn.o_proj.weight"%string false false (None) None (None);
     w "model.layers.${layer_index}.post_attention_layernorm.weight"%string false false (None) None (None);
     w "model.layers.${layer_index}.pre_feedforward_layernorm.weight"%string false false (None) None (None);
     w "model.layers.${layer_index}.mlp.up_proj.weight"%string false false (None) None (None);
     w "model.layers.${layer_index}.mlp.gate_proj.weight"%string false false (None) None (None);
     w "model.layers.${layer_index}.mlp.down_proj.weight"%string false false (None) None (None);
     w "model.layers.${layer_index}.post_feedforward_layernorm.weight"%string false false (None) None (None)];
     ja_post := [w "model.norm.weight"%string false false (None) None (None);
     w "lm_head.weight"%string true true (None) None (Some ["model.embed_tokens.weight"%string])];
     ja_key := Some "text_config.num_hidden_layers"%string; ja_override := None |}.

(** gemma3vl.json, module multi_modal_projector *)
Definition a_gemma3vl_multi_modal_projector : json_arch :=
  {| ja_pre := [w "mm_input_projection_weight"%string false false (None) None (None);
     w "mm_soft_emb_norm.weight"%string false false (None) None (None)];
     ja_layer := [];
     ja_post := [];
     ja_key := None; ja_override := Some 0%Z |}.

(** gemma3vl.json, module vision_tower *)
Definition a_gemma3vl_vision_tower : json_arch :=
  {| ja_pre := [w "embeddings.patch_embedding.bias"%string false false (None) None (None);
     w "embeddings.patch_embedding.weight"%string false false (None) None (None);
     w "embeddings.position_embedding.weight"%string false false (None) None (None)];
     ja_layer := [w "encoder.layers.${layer_index}.layer_norm1.bias"%string false false (None) None (None);
     w "encoder.layers.${layer_index}.layer_norm1.weight"%string false false (None) None (None);
     w "encoder.layers.${layer_index}.layer_norm2.bias"%string false false (None) None (None);
     w "encoder.layers.${layer_index}.layer_norm2.weight"%string false false (None) None (None);
     w "encoder.layers.${layer_index}.mlp.fc1.bias"%string false false (None) None (None);
     w "encoder.layers.${layer_index}.mlp.fc1.weight"%string false false (None) None (None);
     w "encoder.layers.${layer_index}.mlp.fc2.bias"%string false false (None) None (None);
     w "encoder.layers.${layer_index}.mlp.fc2.weight"%string false false (None) None (None);
     w "encoder.layers.${layer_index}.self_attn.k_proj.bias"%string false false (None) None (None);
     w "encoder.layers.${layer_index}.self_attn.k_proj.weight"%string false false (None) None (None);
     w "encoder.layers.${layer_index}.self_attn.out_proj.bias"%string false false (None) None (None);
     w "encoder.layers.${layer_index}.self_attn.out_proj.weight"%string false false (None) None (None);
     w "encoder.layers.${layer_index}.self_attn.q_proj.bias"%string false false (None) None (None);
     w "encoder.layers.${layer_index}.self_attn.q_proj.weight"%string false false (None) None (None);
     w "encoder.layers.${layer_index}.self_attn.v_proj.bias"%string false false (None) None (None);
     w "encoder.layers.${layer_index}.self_attn.v_proj.weight"%string false false (None) None (None)];
     ja_post := [w "post_layernorm.bias"%string false false (None) None (None);
     w "post_layernorm.weight"%string false false (None) None (None)];
     ja_key := Some "vision_config.num_hidden_layers"%string; ja_override := None |}.

(** glm4.json, module default *)
Definition a_glm4_default : json_arch :=
  {| ja_pre := [w "model.embed_tokens.weight"%string true false (None) None (None)];
     ja_layer := [w "model.layers.${layer_index}.input_layernorm.weight"%string false false (None) None (None);
     w "model.layers.${layer_index}.mlp.down_proj.weight"%string false false (None) None (None);
     w "model.layers.${layer_index}.mlp.gate_up_proj.weight"%string false false (None) None (None);
     w "model.layers.${layer_index}.post_attention_layernorm.weight"%string false false (None) None (None);
     w "model.layers.${layer_index}.post_mlp_layernorm.weight"%string false false (None) None (None);
     w "model.layers.${layer_index}.post_self_attn_layernorm.weight"%string false false (None) None (None);
     w "model.layers.${layer_index}.self_attn.q_proj.weight"%string false false (None) None (None);
     w "model.layers.${layer_index}.self_attn.q_proj.bias"%string false true (None) None (None);
     w "model.layers.${layer_index}.self_attn.k_proj.weight"%string false false (None) None (None);
     w "model.layers.${layer_index}.self_attn.k_proj.bias"%string false true (None) None (None);
     w "model.layers.${layer_index}.self_attn.v_proj.weight"%string false false (None) None (None);
     w "model.layers.${layer_index}.self_attn.v_proj.bias"%string false true (None) None (None);
     w "model.layers.${layer_index}.self_attn.o_proj.weight"%string false false (None) None (None)];
     ja_post := [w "model.norm.weight"%string false false (None) None (None);
     w "lm_head.weight"%string true true (None) None (Some ["model.embed_tokens.weight"%string])];
     ja_key := Some "num_hidden_layers"%string; ja_override := None |}.

(** glm4moe.json, module default *)
Definition a_glm4moe_default : json_arch :=
  {| ja_pre := [w "model.embed_tokens.weight"%string true false (None) None (None)];
     ja_layer := [w "model.layers.${layer_index}.input_layernorm.weight"%string false false (None) None (None);
     w "model.layers.${layer_index}.mlp.down_proj.weight"%string false false (None) None (None);
     w "model.layers.${layer_index}.mlp.gate_proj.weight"%string false false (None) None (None);
     w "model.layers.${layer_index}.mlp.up_proj.weight"%string false false (None) None (None);
     w "model.layers.${layer_index}.post_attention_layernorm.weight"%string false false (None) None (None);
     w "model.layers.${layer_index}.self_attn.q_norm.weight"%string false true (None) None (None);
     w "model.layers.${layer_index}.self_attn.k_norm.weight"%string false true (None) None (None);
     w "model.layers.${layer_index}.self_attn.q_proj.weight"%string false false (None) None (None);
     w "model.layers.${layer_index}.self_attn.q_proj.bias"%string false true (None) None (None);
     w "model.layers.${layer_index}.self_attn.k_proj.weight"%string false false (None) None (None);
     w "model.layers.${layer_index}.self_attn.k_proj.bias"%string false true (None) None (None);
     w "model.layers.${layer_index}.self_attn.v_proj.weight"%string false false (None) None (None);
     w "model.layers.${layer_index}.self_attn.v_proj.bias"%string false true (None) None (None);
     w "model.layers.${layer_index}.self_attn.o_proj.weight"%string false false (None) None (None)];
     ja_post := [w "model.norm.weight"%string false false (None) None (None);
     w "lm_head.weight"%string true true (None) None (Some ["model.embed_tokens.weight"%string])];
     ja_key := Some "num_hidden_layers"%string; ja_override := None |}.

(** gpt-neox.json, module default *)
Definition a_gpt_neox_default : json_arch :=
  {| ja_pre := [w "gpt_neox.embed_in.weight"%string true false (None) None (None)];
     ja_layer := [w "gpt_neox.layers.${layer_index}.attention.dense.weight"%string false false (None) None (None);
     w "gpt_neox.layers.${layer_index}.attention.dense.bias"%string false false (None) None (None);
     w "gpt_neox.layers.${layer_index}.attention.query_key_value.weight"%string false false (None) None (None);
     w "gpt_neox.layers.${layer_index}.attention.query_key_value.bias"%string false false (None) None (None);
     w "gpt_neox.layers.${layer_index}.input_layernorm.weight"%string false false (None) None (None);
     w "gpt_neox.layers.${layer_index}.input_layernorm.bias"%string false false (None) None (None);
     w "gpt_neox.layers.${layer_index}.mlp.dense_4h_to_h.weight"%string false false (None) None (None);
     w "gpt_neox.layers.${layer_index}.mlp.dense_4h_to_h.bias"%string false false (None) None (None);
     w "gpt_neox.layers.${layer_index}.mlp.dense_h_to_4h.weight"%string false false (None) None (None);
     w "gpt_neox.layers.${layer_index}.mlp.dense_h_to_4h.bias"%string false false (None) None (None);
     w "gpt_neox.layers.${layer_index}.post_attention_layernorm.weight"%string false false (None) None (None);
     w "gpt_neox.layers.${layer_index}.post_attention_layernorm.bias"%string false false (None) None (None);
     w "gpt_neox.layers.${layer_index}.attention.bias"%string false false (None) None (None);
     w "gpt_neox.layers.${layer_index}.attention.masked_bias"%string false false (None) None (None);
     w "gpt_neox.layers.${layer_index}.attention.rotary_emb.inv_freq"%string false false (None) None (None)];
     ja_post := [w "gpt_neox.final_layer_norm.bias"%string false false (None) None (None);
     w "gpt_neox.final_layer_norm.weight"%string false false (None) None (None);
     w "embed_out.weight"%string true false (None) None (None)];
     ja_key := Some "num_hidden_layers"%string; ja_override := None |}.

(** gpt2-sequence-classification.json, module default *)
Definition a_gpt2_sequence_classification_default : json_arch :=
  {| ja_pre := [w "transformer.wte.weight"%string false false (None) None (None);
     w "transformer.wpe.weight"%string false false (None) None (None)];
     ja_layer := [w "transformer.h.${layer_index}.attn.c_attn.weight"%string false false (None) None (None);
     w "transformer.h.${layer_index}.attn.c_attn.bias"%string false false (None) None (None);
     w "transformer.h.${layer_index}.attn.c_proj.weight"%string false false (None) None (None);
     w "transformer.h.${layer_index}.attn.c_proj.bias"%string false false (None) None (None);
     w "transformer.h.${layer_index}.ln_1.weight"%string false false (None) None (None);
     w "transformer.h.${layer_index}.ln_1.bias"%string false false (None) None (None);
     w "transformer.h.${layer_index}.ln_2.weight"%string false false (None) None (None);
     w "transformer.h.${layer_index}.ln_2.bias"%string false false (None) None (None);
     w "transformer.h.${layer_index}.mlp.c_proj.weight"%string false false (None) None (None);
     w "transformer.h.${layer_index}.mlp.c_proj.bias"%string false false (None) None (None);
     w "transformer.h.${layer_index}.mlp.c_fc.weight"%string false false (None) None (None);
     w "transformer.h.${layer_index}.mlp.c_fc.bias"%string false false (None) None (None)];
     ja_post := [w "transformer.ln_f.weight"%string false false (None) None (None);
     w "transformer.ln_f.bias"%string false false (None) None (None);
     w "score.weight"%string false false (None) None (None)];
     ja_key := Some "n_layer"%string; ja_override := None |}.

(** gpt2.json, module default *)
Definition a_gpt2_default : json_arch :=
  {| ja_pre := [w "transformer.wte.weight"%string true false (Some ["wte.weight"%string]) None (None);
     w "transformer.wpe.weight"%string false false (Some ["wpe.weight"%string]) None (None)];
     ja_layer := [w "transformer.h.${layer_index}.attn.c_attn.weight"%string false false (Some ["h.${layer_index}.attn.c_attn.weight"%string]) None (None);
     w "transformer.h.${layer_index}.attn.c_attn.bias"%string false false (Some ["h.${layer_index}.attn.c_attn.bias"%string]) None (None);
     w "transformer.h.${layer_index}.attn.c_proj.weight"%string false false (Some ["h.${layer_index}.attn.c_proj.weight"%string]) None (None);
     w "transformer.h.${layer_index}.attn.c_proj.bias"%string false false (Some ["h.${layer_index}.attn.c_proj.bias"%string]) None (None);
     w "transformer.h.${layer_index}.ln_1.weight"%string false false (Some ["h.${layer_index}.ln_1.weight"%string]) None (None);
     w "transformer.h.${layer_index}.ln_1.bias"%string false false (Some ["h.${layer_index}.ln_1.bias"%string]) None (None);
     w "transformer.h.${layer_index}.ln_2.weight"%string false false (Some ["h.${layer_index}.ln_2.weight"%string]) None (None);
     w "transformer.h.${layer_index}.ln_2.bias"%string false false (Some ["h.${layer_index}.ln_2.bias"%string]) None (None);
     w "transformer.h.${layer_index}.mlp.c_proj.weight"%string false false (Some ["h.${layer_index}.mlp.c_proj.weight"%string]) None (None);
     w "transformer.h.${layer_index}.mlp.c_proj.bias"%string false false (Some ["h.${layer_index}.mlp.c_proj.bias"%string]) None (None);
     w "transformer.h.${layer_index}.mlp.c_fc.weight"%string false false (Some ["h.${layer_index}.mlp.c_fc.weight"%string]) None (None);
     w "transformer.h.${layer_index}.mlp.c_fc.bias"%string false false (Some ["h.${layer_index}.mlp.c_fc.bias"%string]) None (None)];
     ja_post := [w "transformer.ln_f.weight"%string false false (Some ["ln_f.weight"%string]) None (None);
     w "transformer.ln_f.bias"%string false false (Some ["ln_f.bias"%string]) None (None);
     w "lm_head.weight"%string true true (None) None (Some ["transformer.wte.weight"%string; "wte.weight"%string])];
     ja_key := Some "n_layer"%string; ja_override := None |}.

(** gptbigcode.json, module default *)
Definition a_gptbigcode_default : json_arch :=
  {| ja_pre := [w "transformer.wte.weight"%string true false (None) None (None);
     w "transformer.wpe.weight"%string false false (None) None (None)];
     ja_layer := [w "transformer.h.${layer_index}.attn.c_attn.weight"%string false false (None) None (None);
     w "transformer.h.${layer_index}.attn.c_attn.bias"%string false false (None) None (None);
     w "transformer.h.${layer_index}.attn.c_proj.weight"%string false false (None) None (None);
     w "transformer.h.${layer_index}.attn.c_proj.bias"%string false false (None) None (None);
     w "transformer.h.${layer_index}.ln_1.weight"%string false false (None) None (None);
     w "transformer.h.${layer_index}.ln_1.bias"%string false false (None) None (None);
     w "transformer.h.${layer_index}.ln_2.weight"%string false false (None) None (None);
     w "transformer.h.${layer_index}.ln_2.bias"%string false false (None) None (None);
     w "transformer.h.${layer_index}.mlp.c_proj.weight"%string false false (None) None (None);
     w "transformer.h.${layer_index}.mlp.c_proj.bias"%string false false (None) None (None);
     w "transformer.h.${layer_index}.mlp.c_fc.weight"%string false false (None) None (None);
     w "transformer.h.${layer_index}.mlp.c_fc.bias"%string false false (None) None (None)];
     ja_post := [w "transformer.ln_f.weight"%string false false (None) None (None);
     w "transformer.ln_f.bias"%string false false (None) None (None);
     w "lm_head.weight"%string true true (None) None (Some ["transformer.wte.weight"%string])];
     ja_key := Some "n_layer"%string; ja_override := None |}.

(** granite.json, module default *)
Definition a_granite_default : json_arch :=
  {| ja_pre := [w "model.embed_tokens.weight"%string true false (None) None (None)];
     ja_layer := [w "model.layers.${layer_index}.input_layernorm.weight"%string false false (None) None (None);
     w "model.layers.${layer_index}.self_attn.q_proj.weight"%string false false (None) None (None);
     w "model.layers.${layer_index}.self_attn.q_proj.bias"%string false true (None) None (None);
     w "model.layers.${layer_index}.self_attn.k_proj.weight"%string false false (None) None (None);
     w "model.layers.${layer_index}.self_attn.k_proj.bias"%string false true (None) None (None);
     w "model.layers.${layer_index}.self_attn.v_proj.weight"%string false false (None) None (None);
     w "model.layers.${layer_index}.self_attn.v_proj.bias"%string false true (None) None (None);
     w "model.layers.${layer_index}.self_attn.o_proj.weight"%string false false (None) None (None);
     w "model.layers.${layer_index}.self_attn.o_proj.bias"%string false true (None) None (None);
     w "model.layers.${layer_index}.post_attention_layernorm.weight"%string false false (None) None (None);
     w "model.layers.${layer_index}.mlp.gate_proj.weight"%string false false (None) None (None);
     w "model.layers.${layer_index}.mlp.gate_proj.bias"%string false true (None) None (None);
     w "model.layers.${layer_index}.mlp.up_proj.weight"%string false false (None) None (None);
     w "model.layers.${layer_index}.mlp.up_proj.bias"%string false true (None) None (None);
     w "model.layers.${layer_index}.mlp.down_proj.weight"%string false false (None) None (None);
     w "model.layers.${layer_index}.mlp.down_proj.bias"%string false true (None) None (None)];
     ja_post := [w "model.norm.weight"%string false false (None) None (None);
     w "lm_head.weight"%string true true (None) None (Some ["model.embed_tokens.weight"%string])];
     ja_key := Some "num_hidden_layers"%string; ja_override := None |}.

(** granite4moehybrid.json, module default *)
Definition a_granite4moehybrid_default : json_arch :=
  {| ja_pre := [w "model.embed_tokens.weight"%string true false (None) None (None)];
     ja_layer := [w "model.layers.${layer_index}.input_layernorm.weight"%string false false (None) None (None);
     w "model.layers.${layer_index}.shared_mlp.input_linear.weight"%string false false (None) None (None);
     w "model.layers.${layer_index}.shared_mlp.output_linear.weight"%string false false (None) None (None);
     w "model.layers.${layer_index}.block_sparse_moe.input_linear.weight"%string false false (None) None (None);
     w "model.layers.${layer_index}.block_sparse_moe.router.layer.weight"%string false false (None) None (None);
     w "model.layers.${layer_index}.block_sparse_moe.output_linear.weight"%string false false (None) None (None);
     w "model.layers.${layer_index}.post_attention_layernorm.weight"%string false false (None) None (None);
     w "model.layers.${layer_index}.self_attn.k_proj.weight"%string false true (None) None (None);
     w "model.layers.${layer_index}.self_attn.o_proj.weight"%string false true (None) None (None);
     w "model.layers.${layer_index}.self_attn.q_proj.weight"%string false true (None) None (None);
     w "model.layers.${layer_index}.self_attn.v_proj.weight"%string false true (None) None (None);
     w "model.layers.${layer_index}.mamba.A_log"%string false true (None) None (None);
     w "model.layers.${layer_index}.mamba.conv1d.bias"%string false true (None) None (None);
     w "model.layers.${layer_index}.mamba.conv1d.weight"%string false true (None) None (None);
     w "model.layers.${layer_index}.mamba.D"%string false true (None) None (None);
     w "model.layers.${layer_index}.mamba.dt_bias"%string false true (None) None (None);
     w "model.layers.${layer_index}.mamba.in_proj.weight"%string false true (None) None (None);
     w "model.layers.${layer_index}.mamba.norm.weight"%string false true (None) None (None);
     w "model.layers.${layer_index}.mamba.out_proj.weight"%string false true (None) None (None)];
     ja_post := [w "model.norm.weight"%string false false (None) None (None);
     w "lm_head.weight"%string true true (None) None (Some ["model.embed_tokens.weight"%string])];
     ja_key := Some "num_hidden_layers"%string; ja_override := None |}.

(** internlm2.json, module default *)
Definition a_internlm2_default : json_arch :=
  {| ja_pre := [w "model.tok_embeddings.weight"%string true false (None) None (None)];
     ja_layer := [w "model.layers.${layer_index}.attention_norm.weight"%string false false (None) None (None);
     w "model.layers.${layer_index}.ffn_norm.weight"%string false false (None) None (None);
     w "model.layers.${layer_index}.attention.wqkv.weight"%string false false (None) None (None);
     w "model.layers.${layer_index}.attention.wo.weight"%string false false (None) None (None);
     w "model.layers.${layer_index}.feed_forward.w1.weight"%string false false (None) None (None);
     w "model.layers.${layer_index}.feed_forward.w2.weight"%string false false (None) None (None);
     w "model.layers.${layer_index}.feed_forward.w3.weight"%string false false (None) None (None)];
     ja_post := [w "model.norm.weight"%string false false (None) None (None);
     w "output.weight"%string true true (None) None (Some ["model.tok_embeddings.weight"%string])];
     ja_key := Some "num_hidden_layers"%string; ja_override := None |}.

(** jais.json, module default *)
Definition a_jais_default : json_arch :=
  {| ja_pre := [w "transformer.wte.weight"%string true false (None) None (None);
     w "transformer.relative_pe.slopes"%string false false (None) None (None)];
     ja_layer := [w "transformer.h.${layer_index}.attn.c_attn.weight"%string false false (None) None (None);
     w "transformer.h.${layer_index}.attn.c_attn.bias"%string false false (None) None (None);
     w "transformer.h.${layer_index}.attn.c_proj.weight"%string false false (None) None (None);
     w "transformer.h.${layer_index}.attn.c_proj.bias"%string false false (None) None (None);
     w "transformer.h.${layer_index}.ln_1.weight"%string false false (None) None (None);
     w "transformer.h.${layer_index}.ln_1.bias"%string false false (None) None (None);
     w "transformer.h.${layer_index}.ln_2.weight"%string false false (None) None (None);
     w "transformer.h.${layer_index}.ln_2.bias"%string false false (None) None (None);
     w "transformer.h.${layer_index}.mlp.c_fc.weight"%string false false (None) None (None);
     w "transformer.h.${layer_index}.mlp.c_fc.bias"%string false false (None) None (None);
     w "transformer.h.${layer_index}.mlp.c_fc2.weight"%string false false (None) None (None);
     w "transformer.h.${layer_index}.mlp.c_fc2.bias"%string false false (None) None (None);
     w "transformer.h.${layer_index}.mlp.c_proj.weight"%string false false (None) None (None);
     w "transformer.h.${layer_index}.mlp.c_proj.bias"%string false false (None) None (None)];
     ja_post := [w "transformer.ln_f.weight"%string false false (None) None (None);
     w "transformer.ln_f.bias"%string false false (None) None (None)];
     ja_key := Some "n_layer"%string; ja_override := None |}.

(** lfm2.json, module default *)
Definition a_lfm2_default : json_arch :=
  {| ja_pre := [w "model.embed_tokens.weight"%string true false (None) None (None);
     w "model.embedding_norm.weight"%string true false (None) None (None)];
     ja_layer := [w "model.layers.${layer_index}.feed_forward.w1.weight"%string false false (None) None (None);
     w "model.layers.${layer_index}.feed_forward.w2.weight"%string false false (None) None (None);
     w "model.layers.${layer_index}.feed_forward.w3.weight"%string false false (None) None (None);
     w "model.layers.${layer_index}.ffn_norm.weight"%string false false (None) None (None);
     w "model.layers.${layer_index}.operator_norm.weight"%string false false (None) None (None);
     w "model.layers.${layer_index}.conv.conv.weight"%string false true (None) None (None);
     w "model.layers.${layer_index}.conv.in_proj.weight"%string false true (None) None (None);
     w "model.layers.${layer_index}.conv.out_proj.weight"%string false true (None) None (None);
     w "model.layers.${layer_index}.self_attn.k_layernorm.weight"%string false true (None) None (None);
     w "model.layers.${layer_index}.self_attn.k_proj.weight"%string false true (None) None (None);
     w "model.layers.${layer_index}.self_attn.out_proj.weight"%string false true (None) None (None);
     w "model.layers.${layer_index}.self_attn.q_layernorm.weight"%string false true (None) None (None);
     w "model.layers.${layer_index}.self_attn.q_proj.weight"%string false true (None) None (None);
     w "model.layers.${layer_index}.self_attn.v_proj.weight"%string false true (None) None (None)];
     ja_post := [w "lm_head.weight"%string true true (None) None (None)];
     ja_key := Some "num_hidden_layers"%string; ja_override := None |}.

(** llama-sequence-classification.json, module default *)
Definition a_llama_sequence_classification_default : json_arch :=
  {| ja_pre := [w "model.embed_tokens.weight"%string true false (None) None (None)];
     ja_layer := [w "model.layers.${layer_index}.input_layernorm.weight"%string false false (None) None (None);
     w "model.layers.${layer_index}.self_attn.q_proj.weight"%string false false (None) None (None);
     w "model.layers.${layer_index}.self_attn.k_proj.weight"%string false false (None) None (None);
     w "model.layers.${layer_index}.self_attn.v_proj.weight"%string false false (None) None (None);
     w "model.layers.${layer_index}.self_attn.o_proj.weight"%string false false (None) None (None);
     w "model.layers.${layer_index}.post_attention_layernorm.weight"%string false false (None) None (None);
     w "model.layers.${layer_index}.mlp.up_proj.weight"%string false false (None) None (None);
     w "model.layers.${layer_index}.mlp.gate_proj.weight"%string false false (None) None (None);
     w "model.layers.${layer_index}.mlp.down_proj.weight"%string false false (None) None (None)];
     ja_post := [w "model.norm.weight"%string false false (None) None (None);
     w "score.weight"%string false false (None) None (None);
     w "score.bias"%string false true (None) None (None)];
     ja_key := Some "num_hidden_layers"%string; ja_override := None |}.

(** llama.json, module default *)
Definition a_llama_default : json_arch :=
  {| ja_pre := [w "model.embed_tokens.weight"%string true false (None) None (None)];
     ja_layer := [w "model.layers.${layer_index}.input_layernorm.weight"%string false false (None) None (None);
     w "model.layers.${layer_index}.self_attn.q_proj.weight"%string false false (None) None (None);
     w "model.layers.${layer_index}.self_attn.k_proj.weight"%string false false (None) None (None);
     w "model.layers.${layer_index}.self_attn.v_proj.weight"%string false false (None) None (None);
     w "model.layers.${layer_index}.self_attn.o_proj.weight"%string false false (None) None (None);
     w "model.layers.${layer_index}.post_attention_layernorm.weight"%string false false (None) None (None);
     w "model.layers.${layer_index}.mlp.up_proj.weight"%string false false (None) None (None);
     w "model.layers.${layer_index}.mlp.gate_proj.weight"%string false false (None) None (None);
     w "model.layers.${layer_index}.mlp.down_proj.weight"%string false false (None) None (None)];
     ja_post := [w "model.norm.weight"%string false false (None) None (None);
     w "lm_head.weight"%string true true (None) None (Some ["model.embed_tokens.weight"%string])];
     ja_key := Some "num_hidden_layers"%string; ja_override := None |}.

(** llama4.json, module text_decoder *)
Definition a_llama4_text_decoder : json_arch :=
  {| ja_pre := [w "model.embed_tokens.weight"%string true false (None) None (None)];
     ja_layer := [w "model.layers.${layer_index}.input_layernorm.weight"%string false false (None) None (None);
     w "model.layers.${layer_index}.self_attn.q_proj.weight"%string false false (None) None (None);
     w "model.layers.${layer_index}.self_attn.k_proj.weight"%string false false (None) None (None);
     w "model.layers.${layer_index}.self_attn.v_proj.weight"%string false false (None) None (None);
     w "model.layers.${layer_index}.self_attn.o_proj.weight"%string false false (None) None (None);
     w "model.layers.${layer_index}.post_attention_layernorm.weight"%string false false (None) None (None);
     w "model.layers.${layer_index}.feed_forward.shared_expert.down_proj.weight"%string false true (None) None (None);
     w "model.layers.${layer_index}.feed_forward.shared_expert.gate_proj.weight"%string false true (None) None (None);
     w "model.layers.${layer_index}.feed_forward.shared_expert.up_proj.weight"%string false true (None) None (None);
     w "model.layers.${layer_index}.feed_forward.experts.down_proj"%string false true (None) None (None);
     w "model.layers.${layer_index}.feed_forward.experts.gate_up_proj"%string false true (None) None (None);
     w "model.layers.${layer_index}.feed_forward.router.weight"%string false true (None) None (None);
     w "model.layers.${layer_index}.feed_forward.down_proj.weight"%string false true (None) None (None);
     w "model.layers.${layer_index}.feed_forward.gate_proj.weight"%string false true (None) None (None);
     w "model.layers.${layer_index}.feed_forward.up_proj.weight"%string false true (None) None (None)];
     ja_post := [w "model.norm.weight"%string false false (None) None (None);
     w "lm_head.weight"%string true true (None) None (Some ["model.embed_tokens.weight"%string])];
     ja_key := Some "text_config.num_hidden_layers"%string; ja_override := None |}.

(** llama4.json, module multi_modal_projector *)
Definition a_llama4_multi_modal_projector : json_arch :=
  {| ja_pre := [w "linear_1.weight"%string false false (None) None (None)];
     ja_layer := [];
     ja_post := [];
     ja_key := None; ja_override := Some 0%Z |}.

(** llama4.json, module vision_model *)
Definition a_llama4_vision_model : json_arch :=
  {| ja_pre := [w "class_embedding"%string false false (None) None (None);
     w "patch_embedding.linear.weight"%string false false (None) None (None);
     w "positional_embedding_vlm"%string false false (None) None (None);
     w "layernorm_pre.bias"%string false false (None) None (None);
     w "layernorm_pre.weight"%string false false (None) None (None)];
     ja_layer := [w "model.layers.${layer_index}.input_layernorm.weight"%string false false (None) None (None);
     w "model.layers.${layer_index}.input_layernorm.bias"%string false false (None) None (None);
     w "model.layers.${layer_index}.mlp.fc1.weight"%string false false (None) None (None);
     w "model.layers.${layer_index}.mlp.fc1.bias"%string false false (None) None (None);
     w "model.layers.${layer_index}.mlp.fc2.weight"%string false false (None) None (None);
     w "model.layers.${layer_index}.mlp.fc2.bias"%string false false (None) None (None);
     w "model.layers.${layer_index}.post_attention_layernorm.weight"%string false false (None) None (None);
     w "model.layers.${layer_index}.post_attention_layernorm.bias"%string false false (None) None (None);
     w "model.layers.${layer_index}.self_attn.k_proj.weight"%string false false (None) None (None);
     w "model.layers.${layer_index}.self_attn.k_proj.bias"%string false false (None) None (None);
     w "model.layers.${layer_index}.self_attn.o_proj.weight"%string false false (None) None (None);
     w "model.layers.${layer_index}.self_attn.o_proj.bias"%string false false (None) None (None);
     w "model.layers.${layer_index}.self_attn.q_proj.weight"%string false false (None) None (None);
     w "model.layers.${layer_index}.self_attn.q_proj.bias"%string false false (None) None (None);
     w "model.layers.${layer_index}.self_attn.v_proj.weight"%string false false (None) None (None);
     w "model.layers.${layer_index}.self_attn.v_proj.bias"%string false false (None) None (None)];
     ja_post := [w "layernorm_post.weight"%string false false (None) None (None);
     w "layernorm_post.bias"%string false false (None) None (None);
     w "vision_adapter.mlp.fc1.weight"%string false false (None) None (None);
     w "vision_adapter.mlp.fc2.weight"%string false false (None) None (None)];
     ja_key := Some "vision_config.num_hidden_layers"%string; ja_override := None |}.

(** mamba.json, module default *)
Definition a_mamba_default : json_arch :=
  {| ja_pre := [w "backbone.embeddings.weight"%string true false (None) None (None)];
     ja_layer := [w "backbone.layers.${layer_index}.mixer.A_log"%string false false (None) None (None);
     w "backbone.layers.${layer_index}.mixer.conv1d.bias"%string false false (None) None (None);
     w "backbone.layers.${layer_index}.mixer.conv1d.weight"%string false false (None) None (None);
     w "backbone.layers.${layer_index}.mixer.D"%string false false (None) None (None);
     w "backbone.layers.${layer_index}.mixer.dt_proj.bias"%string false false (None) None (None);
     w "backbone.layers.${layer_index}.mixer.dt_proj.weight"%string false false (None) None (None);
     w "backbone.layers.${layer_index}.mixer.in_proj.weight"%string false false (None) None (None);
     w "backbone.layers.${layer_index}.mixer.out_proj.weight"%string false false (None) None (None);
     w "backbone.layers.${layer_index}.mixer.x_proj.weight"%string false false (None) None (None);
     w "backbone.layers.${layer_index}.norm.weight"%string false false (None) None (None)];
     ja_post := [w "backbone.norm_f.weight"%string false false (None) None (None);
     w "lm_head.weight"%string true true (None) None (Some ["backbone.embeddings.weight"%string])];
     ja_key := Some "num_hidden_layers"%string; ja_override := None |}.

(** mistral.json, module default *)
Definition a_mistral_default : json_arch :=
  {| ja_pre := [w "model.embed_tokens.weight"%string true false (None) None (None)];
     ja_layer := [w "model.layers.${layer_index}.input_layernorm.weight"%string false false (None) None (None);
     w "model.layers.${layer_index}.self_attn.q_proj.weight"%string false false (None) None (None);
     w "model.layers.${layer_index}.self_attn.k_proj.weight"%string false false (None) None (None);
     w "model.layers.${layer_index}.self_attn.v_proj.weight"%string false false (None) None (None);
     w "model.layers.${layer_index}.self_attn.o_proj.weight"%string false false (None) None (None);
     w "model.layers.${layer_index}.post_attention_layernorm.weight"%string false false (None) None (None);
     w "model.layers.${layer_index}.mlp.up_proj.weight"%string false false (None) None (None);
     w "model.layers.${layer_index}.mlp.gate_proj.weight"%string false false (None) None (None);
     w "model.layers.${layer_index}.mlp.down_proj.weight"%string false false (None) None (None)];
     ja_post := [w "model.norm.weight"%string false false (None) None (None);
     w "lm_head.weight"%string true true (None) None (Some ["model.embed_tokens.weight"%string])];
     ja_key := Some "num_hidden_layers"%string; ja_override := None |}.

(** mistral3.json, module text_decoder *)
Definition a_mistral3_text_decoder : json_arch :=
  {| ja_pre := [w "model.embed_tokens.weight"%string true false (None) None (None)];
     ja_layer := [w "model.layers.${layer_index}.input_layernorm.weight"%string false false (None) None (None);
     w "model.layers.${layer_index}.self_attn.q_proj.weight"%string false false (None) None (None);
     w "model.layers.${layer_index}.self_attn.k_proj.weight"%string false false (None) None (None);
     w "model.layers.${layer_index}.self_attn.v_proj.weight"%string false false (None) None (None);
     w "model.layers.${layer_index}.self_attn.o_proj.weight"%string false false (None) None (None);
     w "model.layers.${layer_index}.post_attention_layernorm.weight"%string false false (None) None (None);
     w "model.layers.${layer_index}.mlp.up_proj.weight"%string false false (None) None (None);
     w "model.layers.${layer_index}.mlp.gate_proj.weight"%string false false (None) None (None);
     w "model.layers.${layer_index}.mlp.down_proj.weight"%string false false (None) None (None)];
     ja_post := [w "model.norm.weight"%string false false (None) None (None);
     w "lm_head.weight"%string true true (None) None (Some ["model.embed_tokens.weight"%string])];
     ja_key := Some "text_config.num_hidden_layers"%string; ja_override := None |}.

(** mistral3.json, module multi_modal_projector *)
Definition a_mistral3_multi_modal_projector : json_arch :=
  {| ja_pre := [w "linear_1.weight"%string false false (None) None (None);
     w "linear_2.weight"%string false false (None) None (None);
     w "norm.weight"%string false false (None) None (None);
     w "patch_merger.merging_layer.weight"%string false false (None) None (None)];
     ja_layer := [];
     ja_post := [];
     ja_key := None; ja_override := Some 0%Z |}.

(** mistral3.json, module vision_tower *)
Definition a_mistral3_vision_tower : json_arch :=
  {| ja_pre := [w "patch_conv.weight"%string false false (None) None (None);
     w "ln_pre.weight"%string false false (None) None (None)];
     ja_layer := [w "transformer.layers.${layer_index}.ffn_norm.weight"%string false false (None) None (None);
     w "transformer.layers.${layer_index}.feed_forward.down_proj.weight"%string false false (None) None (None);
     w "transformer.layers.${layer_index}.feed_forward.gate_proj.weight"%string false false (None) None (None);
     w "transformer.layers.${layer_index}.feed_forward.up_proj.weight"%string false false (None) None (None);
     w "transformer.layers.${layer_index}.attention_norm.weight"%string false false (None) None (None);
     w "transformer.layers.${layer_index}.attention.k_proj.weight"%string false false (None) None (None);
     w "transformer.layers.${layer_index}.attention.o_proj.weight"%string false false (None) None (None);
     w "transformer.layers.${layer_index}.attention.q_proj.weight"%string false false (None) None (None);
     w "transformer.layers.${layer_index}.attention.v_proj.weight"%string false false (None) None (None)];
     ja_post := [];
     ja_key := Some "vision_config.num_hidden_layers"%string; ja_override := None |}.

(** mixtral.json, module default *)
Definition a_mixtral_default : json_arch :=
  {| ja_pre := [w "model.embed_tokens.weight"%string true false (None) None (None)];
     ja_layer := [w "model.layers.${layer_index}.input_layernorm.weight"%string false false (None) None (None);
     w "model.layers.${layer_index}.self_attn.q_proj.weight"%string false false (None) None (None);
     w "model.layers.${layer_index}.self_attn.k_proj.weight"%string false false (None) None (None);
     w "model.layers.${layer_index}.self_attn.v_proj.weight"%string false false (None) None (None);
     w "model.layers.${layer_index}.self_attn.o_proj.weight"%string false false (None) None (None);
     w "model.layers.${layer_index}.post_attention_layernorm.weight"%string false false (None) None (None);
     w "model.layers.${layer_index}.mlp.experts.gate_up_proj"%string false false (None) None (None);
     w "model.layers.${layer_index}.mlp.experts.down_proj"%string false false (None) None (None);
     w "model.layers.${layer_index}.mlp.gate.weight"%string false false (None) None (None)];
     ja_post := [w "model.norm.weight"%string false false (None) None (None);
     w "lm_head.weight"%string true true (None) None (Some ["model.embed_tokens.weight"%string])];
     ja_key := Some "num_hidden_layers"%string; ja_override := None |}.

(** olmo2.json, module default *)
Definition a_olmo2_default : json_arch :=
  {| ja_pre := [w "model.embed_tokens.weight"%string true false (None) None (None)];
     ja_layer := [w "model.layers.${layer_index}.self_attn.q_proj.weight"%string false false (None) None (None);
     w "model.layers.${layer_index}.self_attn.k_proj.weight"%string false false (None) None (None);
     w "model.layers.${layer_index}.self_attn.v_proj.weight"%string false false (None) None (None);
     w "model.layers.${layer_index}.self_attn.o_proj.weight"%string false false (None) None (None);
     w "model.layers.${layer_index}.post_attention_layernorm.weight"%string false false (None) None (None);
     w "model.layers.${layer_index}.mlp.up_proj.weight"%string false false (None) None (None);
     w "model.layers.${layer_index}.mlp.gate_proj.weight"%string false false (None) None (None);
     w "model.layers.${layer_index}.mlp.down_proj.weight"%string false false (None) None (None);
     w "model.layers.${layer_index}.post_feedforward_layernorm.weight"%string false false (None) None (None)];
     ja_post := [w "model.norm.weight"%string false false (None) None (None);
     w "lm_head.weight"%string true true (None) None (Some ["model.embed_tokens.weight"%string])];
     ja_key := Some "num_hidden_layers"%string; ja_override := None |}.

(** phi-1.json, module default *)
Definition a_phi_1_default : json_arch :=
  {| ja_pre := [w "layers.0.wte.weight"%string true false (None) None (None)];
     ja_layer := [w "layers.${layer_index}.ln.bias"%string false false (None) None (None);
     w "layers.${layer_index}.ln.weight"%string false false (None) None (None);
     w "layers.${layer_index}.mixer.Wqkv.bias"%string false false (None) None (None);
     w "layers.${layer_index}.mixer.Wqkv.weight"%string false false (None) None (None);
     w "layers.${layer_index}.mixer.out_proj.bias"%string false false (None) None (None);
     w "layers.${layer_index}.mixer.out_proj.weight"%string false false (None) None (None);
     w "layers.${layer_index}.mixer.rotary_emb.inv_freq"%string false false (None) None (None);
     w "layers.${layer_index}.mlp.fc1.bias"%string false false (None) None (None);
     w "layers.${layer_index}.mlp.fc1.weight"%string false false (None) None (None);
     w "layers.${layer_index}.mlp.fc2.bias"%string false false (None) None (None);
     w "layers.${layer_index}.mlp.fc2.weight"%string false false (None) None (None)];
     ja_post := [w "layers.${num_layers}.linear.bias"%string true false (None) None (None);
     w "layers.${num_layers}.linear.weight"%string true false (None) None (None);
     w "layers.${num_layers}.ln.bias"%string false false (None) None (None);
     w "layers.${num_layers}.ln.weight"%string false false (None) None (None)];
     ja_key := Some "n_layer"%string; ja_override := None |}.

(** phi2-old.json, module default *)
Definition a_phi2_old_default : json_arch :=
  {| ja_pre := [w "transformer.embd.wte.weight"%string true false (None) None (None)];
     ja_layer := [w "transformer.h.${layer_index}.ln.bias"%string false false (None) None (None);
     w "transformer.h.${layer_index}.ln.weight"%string false false (None) None (None);
     w "transformer.h.${layer_index}.mixer.out_proj.bias"%string false false (None) None (None);
     w "transformer.h.${layer_index}.mixer.out_proj.weight"%string false false (None) None (None);
     w "transformer.h.${layer_index}.mixer.Wqkv.bias"%string false false (None) None (None);
     w "transformer.h.${layer_index}.mixer.Wqkv.weight"%string false false (None) None (None);
     w "transformer.h.${layer_index}.mlp.fc1.bias"%string false false (None) None (None);
     w "transformer.h.${layer_index}.mlp.fc1.weight"%string false false (None) None (None);
     w "transformer.h.${layer_index}.mlp.fc2.bias"%string false false (None) None (None);
     w "transformer.h.${layer_index}.mlp.fc2.weight"%string false false (None) None (None)];
     ja_post := [w "lm_head.linear.bias"%string false false (None) None (None);
     w "lm_head.linear.weight"%string true false (None) None (None);
     w "lm_head.ln.bias"%string false false (None) None (None);
     w "lm_head.ln.weight"%string false false (None) None (None)];
     ja_key := Some "n_layer"%string; ja_override := None |}.

(** phi2.json, module default *)
Definition a_phi2_default : json_arch :=
  {| ja_pre := [w "model.embed_tokens.weight"%string true false (None) None (None)];
     ja_layer := [w "model.layers.${layer_index}.input_layernorm.bias"%string false false (None) None (None);
     w "model.layers.${layer_index}.input_layernorm.weight"%string false false (None) None (None);
     w "model.layers.${layer_index}.self_attn.dense.bias"%string false false (None) None (None);
     w "model.layers.${layer_index}.self_attn.dense.weight"%string false false (None) None (None);
     w "model.layers.${layer_index}.self_attn.q_proj.bias"%string false false (None) None (None);
     w "model.layers.${layer_index}.self_attn.q_proj.weight"%string false false (None) None (None);
     w "model.layers.${layer_index}.self_attn.k_proj.bias"%string false false (None) None (None);
     w "model.layers.${layer_index}.self_attn.k_proj.weight"%string false false (None) None (None);
     w "model.layers.${layer_index}.self_attn.v_proj.bias"%string false false (None) None (None);
     w "model.layers.${layer_index}.self_attn.v_proj.weight"%string false false (None) None (None);
     w "model.layers.${layer_index}.mlp.fc1.bias"%string false false (None) None (None);
     w "model.layers.${layer_index}.mlp.fc1.weight"%string false false (None) None (None);
     w "model.layers.${layer_index}.mlp.fc2.bias"%string false false (None) None (None);
     w "model.layers.${layer_index}.mlp.fc2.weight"%string false false (None) None (None)];
     ja_post := [w "lm_head.bias"%string false false (None) None (None);
     w "lm_head.weight"%string true false (None) None (None);
     w "model.final_layernorm.bias"%string false false (None) None (None);
     w "model.final_layernorm.weight"%string false false (None) None (None)];
     ja_key := Some "num_hidden_layers"%string; ja_override := None |}.

(** phi3-small.json, module default *)
Definition a_phi3_small_default : json_arch :=
  {| ja_pre := [w "model.embed_tokens.weight"%string true false (None) None (None)];
     ja_layer := [w "model.layers.${layer_index}.input_layernorm.weight"%string false false (None) None (None);
     w "model.layers.${layer_index}.input_layernorm.bias"%string false false (None) None (None);
     w "model.layers.${layer_index}.post_attention_layernorm.weight"%string false false (None) None (None);
     w "model.layers.${layer_index}.post_attention_layernorm.bias"%string false false (None) None (None);
     w "model.layers.${layer_index}.self_attn.dense.weight"%string false false (None) None (None);
     w "model.layers.${layer_index}.self_attn.dense.bias"%string false false (None) None (None);
     w "model.layers.${layer_index}.self_attn.query_key_value.weight"%string false false (None) None (None);
     w "model.layers.${layer_index}.self_attn.query_key_value.bias"%string false false (None) None (None);
     w "model.layers.${layer_index}.mlp.up_proj.weight"%string false false (None) None (None);
     w "model.layers.${layer_index}.mlp.up_proj.bias"%string false false (None) None (None);
     w "model.layers.${layer_index}.mlp.down_proj.weight"%string false false (None) None (None);
     w "model.layers.${layer_index}.mlp.down_proj.bias"%string false false (None) None (None)];
     ja_post := [w "lm_head.weight"%string true true (None) None (Some ["model.embed_tokens.weight"%string]);
     w "model.final_layernorm.weight"%string false false (None) None (None);
     w "model.final_layernorm.bias"%string false false (None) None (None)];
     ja_key := Some "num_hidden_layers"%string; ja_override := None |}.

(** phi3.json, module default *)
Definition a_phi3_default : json_arch :=
  {| ja_pre := [w "model.embed_tokens.weight"%string true false (None) None (None)];
     ja_layer := [w "model.layers.${layer_index}.input_layernorm.weight"%string false false (None) None (None);
     w "model.layers.${layer_index}.post_attention_layernorm.weight"%string false false (None) None (None);
     w "model.layers.${layer_index}.self_attn.o_proj.weight"%string false false (None) None (None);
     w "model.layers.${layer_index}.self_attn.qkv_proj.weight"%string false false (None) None (None);
     w "model.layers.${layer_index}.mlp.gate_up_proj.weight"%string false false (None) None (None);
     w "model.layers.${layer_index}.mlp.down_proj.weight"%string false false (None) None (None)];
     ja_post := [w "lm_head.weight"%string true false (None) None (None);
     w "model.norm.weight"%string false false (None) None (None)];
     ja_key := Some "num_hidden_layers"%string; ja_override := None |}.

(** qwen.json, module default *)
Definition a_qwen_default : json_arch :=
  {| ja_pre := [w "transformer.wte.weight"%string true false (None) None (None)];
     ja_layer := [w "transformer.h.${layer_index}.attn.c_attn.bias"%string false false (None) None (None);
     w "transformer.h.${layer_index}.attn.c_attn.weight"%string false false (None) None (None);
     w "transformer.h.${layer_index}.attn.c_proj.weight"%string false false (None) None (None);
     w "transformer.h.${layer_index}.ln_1.weight"%string false false (None) None (None);
     w "transformer.h.${layer_index}.ln_2.weight"%string false false (None) None (None);
     w "transformer.h.${layer_index}.mlp.c_proj.weight"%string false false (None) None (None);
     w "transformer.h.${layer_index}.mlp.w1.weight"%string false false (None) None (None);
     w "transformer.h.${layer_index}.mlp.w2.weight"%string false false (None) None (None)];
     ja_post := [w "transformer.ln_f.weight"%string false false (None) None (None);
     w "lm_head.weight"%string true false (None) None (None)];
     ja_key := Some "num_hidden_layers"%string; ja_override := None |}.

(** qwen2.json, module default *)
Definition a_qwen2_default : json_arch :=
  {| ja_pre := [w "model.embed_tokens.weight"%string true false (None) None (None)];
     ja_layer := [w "model.layers.${layer_index}.input_layernorm.weight"%string false false (None) None (None);
     w "model.layers.${layer_index}.mlp.down_proj.weight"%string false false (None) None (None);
     w "model.layers.${layer_index}.mlp.gate_proj.weight"%string false false (None) None (None);
     w "model.layers.${layer_index}.mlp.up_proj.weight"%string false false (None) None (None);
     w "model.layers.${layer_index}.post_attention_layernorm.weight"%string false false (None) None (None);
     w "model.layers.${layer_index}.self_attn.k_proj.bias"%string false false (None) None (None);
     w "model.layers.${layer_index}.self_attn.k_proj.weight"%string false false (None) None (None);
     w "model.layers.${layer_index}.self_attn.o_proj.weight"%string false false (None) None (None);
     w "model.layers.${layer_index}.self_attn.q_proj.bias"%string false false (None) None (None);
     w "model.layers.${layer_index}.self_attn.q_proj.weight"%string false false (None) None (None);
     w "model.layers.${layer_index}.self_attn.v_proj.bias"%string false false (None) None (None);
     w "model.layers.${layer_index}.self_attn.v_proj.weight"%string false false (None) None (None)];
     ja_post := [w "model.norm.weight"%string false false (None) None (None);
     w "lm_head.weight"%string true true (None) None (Some ["model.embed_tokens.weight"%string])];
     ja_key := Some "num_hidden_layers"%string; ja_override := None |}.

(** qwen2_5_vl.json, module text_decoder *)
Definition a_qwen2_5_vl_text_decoder : json_arch :=
  {| ja_pre := [w "model.embed_tokens.weight"%string true false (None) None (None)];
     ja_layer := [w "model.layers.${layer_index}.input_layernorm.weight"%string false false (None) None (None);
     w "model.layers.${layer_index}.mlp.down_proj.weight"%string false false (None) None (None);
     w "model.layers.${layer_index}.mlp.gate_proj.weight"%string false false (None) None (None);
     w "model.layers.${layer_index}.mlp.up_proj.weight"%string false false (None) None (None);
     w "model.layers.${layer_index}.post_attention_layernorm.weight"%string false false (None) None (None);
     w "model.layers.${layer_index}.self_attn.k_proj.bias"%string false false (None) None (None);
     w "model.layers.${layer_index}.self_attn.k_proj.weight"%string false false (None) None (None);
     w "model.layers.${layer_index}.self_attn.o_proj.weight"%string false false (None) None (None);
     w "model.layers.${layer_index}.self_attn.q_proj.bias"%string false false (None) None (None);
     w "model.layers.${layer_index}.self_attn.q_proj.weight"%string false false (None) None (None);
     w "model.layers.${layer_index}.self_attn.v_proj.bias"%string false false (None) None (None);
     w "model.layers.${layer_index}.self_attn.v_proj.weight"%string false false (None) None (None)];
     ja_post := [w "model.norm.weight"%string false false (None) None (None);
     w "lm_head.weight"%string true true (None) None (Some ["model.embed_tokens.weight"%string])];
     ja_key := Some "text_config.num_hidden_layers"%string; ja_override := None |}.

(** qwen2_5_vl.json, module multi_modal_projector *)
Definition a_qwen2_5_vl_multi_modal_projector : json_arch :=
  {| ja_pre := [w "visual.merger.ln_q.weight"%string false false (None) None (None)];
     ja_layer := [w "visual.merger.mlp.0.weight"%string false false (None) None (None);
     w "visual.merger.mlp.0.bias"%string false false (None) None (None);
     w "visual.merger.mlp.2.weight"%string false false (None) None (None);
     w "visual.merger.mlp.2.bias"%string false false (None) None (None)];
     ja_post := [];
     ja_key := None; ja_override := Some 2%Z |}.

(** qwen2_5_vl.json, module vision_tower *)
Definition a_qwen2_5_vl_vision_tower : json_arch :=
  {| ja_pre := [w "visual.patch_embed.proj.weight"%string true false (None) None (None)];
     ja_layer := [w "visual.blocks.${layer_index}.attn.proj.bias"%string false false (None) None (None);
     w "visual.blocks.${layer_index}.attn.proj.weight"%string false false (None) None (None);
     w "visual.blocks.${layer_index}.attn.qkv.bias"%string false false (None) None (None);
     w "visual.blocks.${layer_index}.attn.qkv.weight"%string false false (None) None (None);
     w "visual.blocks.${layer_index}.mlp.down_proj.bias"%string false false (None) None (None);
     w "visual.blocks.${layer_index}.mlp.down_proj.weight"%string false false (None) None (None);
     w "visual.blocks.${layer_index}.mlp.gate_proj.bias"%string false false (None) None (None);
     w "visual.blocks.${layer_index}.mlp.gate_proj.weight"%string false false (None) None (None);
     w "visual.blocks.${layer_index}.mlp.up_proj.bias"%string false false (None) None (None);
     w "visual.blocks.${layer_index}.mlp.up_proj.weight"%string false false (None) None (None);
     w "visual.blocks.${layer_index}.norm1.weight"%string false false (None) None (None);
     w "visual.blocks.${layer_index}.norm2.weight"%string false false (None) None (None)];
     ja_post := [];
     ja_key := Some "vision_config.depth"%string; ja_override := None |}.

(** qwen2_vl.json, module text_decoder *)
Definition a_qwen2_vl_text_decoder : json_arch :=
  {| ja_pre := [w "model.embed_tokens.weight"%string true false (None) None (None)];
     ja_layer := [w "model.layers.${layer_index}.input_layernorm.weight"%string false false (None) None (None);
     w "model.layers.${layer_index}.mlp.down_proj.weight"%string false false (None) None (None);
     w "model.layers.${layer_index}.mlp.gate_proj.weight"%string false false (None) None (None);
     w "model.layers.${layer_index}.mlp.up_proj.weight"%string false false (None) None (None);
     w "model.layers.${layer_index}.post_attention_layernorm.weight"%string false false (None) None (None);
     w "model.layers.${layer_index}.self_attn.k_proj.bias"%string false false (None) None (None);
     w "model.layers.${layer_index}.self_attn.k_proj.weight"%string false false (None) None (None);
     w "model.layers.${layer_index}.self_attn.o_proj.weight"%string false false (None) None (None);
     w "model.layers.${layer_index}.self_attn.q_proj.bias"%string false false (None) None (None);
     w "model.layers.${layer_index}.self_attn.q_proj.weight"%string false false (None) None (None);
     w "model.layers.${layer_index}.self_attn.v_proj.bias"%string false false (None) None (None);
     w "model.layers.${layer_index}.self_attn.v_proj.weight"%string false false (None) None (None)];
     ja_post := [w "model.norm.weight"%string false false (None) None (None);
     w "lm_head.weight"%string true true (None) None (Some ["model.embed_tokens.weight"%string])];
     ja_key := Some "num_hidden_layers"%string; ja_override := None |}.

(** qwen2_vl.json, module multi_modal_projector *)
Definition a_qwen2_vl_multi_modal_projector : json_arch :=
  {| ja_pre := [w "visual.merger.ln_q.weight"%string false false (None) None (None);
     w "visual.merger.ln_q.bias"%string false false (None) None (None)];
     ja_layer := [w "visual.merger.mlp.0.weight"%string false false (None) None (None);
     w "visual.merger.mlp.0.bias"%string false false (None) None (None);
     w "visual.merger.mlp.2.weight"%string false false (None) None (None);
     w "visual.merger.mlp.2.bias"%string false false (None) None (None)];
     ja_post := [];
     ja_key := None; ja_override := Some 2%Z |}.

(** qwen2_vl.json, module vision_tower *)
Definition a_qwen2_vl_vision_tower : json_arch :=
  {| ja_pre := [w "visual.patch_embed.proj.weight"%string true false (None) None (None)];
     ja_layer := [w "visual.blocks.${layer_index}.norm1.weight"%string false false (None) None (None);
     w "visual.blocks.${layer_index}.norm1.bias"%string false false (None) None (None);
     w "visual.blocks.${layer_index}.norm2.weight"%string false false (None) None (None);
     w "visual.blocks.${layer_index}.norm2.bias"%string false false (None) None (None);
     w "visual.blocks.${layer_index}.attn.qkv.weight"%string false false (None) None (None);
     w "visual.blocks.${layer_index}.attn.qkv.bias"%string false false (None) None (None);
     w "visual.blocks.${layer_index}.attn.proj.weight"%string false false (None) None (None);
     w "visual.blocks.${layer_index}.attn.proj.bias"%string false false (None) None (None);
     w "visual.blocks.${layer_index}.mlp.fc1.weight"%string false false (None) None (None);
     w "visual.blocks.${layer_index}.mlp.fc1.bias"%string false false (None) None (None);
     w "visual.blocks.${layer_index}.mlp.fc2.weight"%string false false (None) None (None);
     w "visual.blocks.${layer_index}.mlp.fc2.bias"%string false false (None) None (None)];
     ja_post := [];
     ja_key := Some "vision_config.depth"%string; ja_override := None |}.

(** qwen3.json, module default *)
Definition a_qwen3_default : json_arch :=
  {| ja_pre := [w "model.embed_tokens.weight"%string true false (None) None (None)];
     ja_layer := [w "model.layers.${layer_index}.input_layernorm.weight"%string false false (None) None (None);
     w "model.layers.${layer_index}.mlp.down_proj.weight"%string false false (None) None (None);
     w "model.layers.${layer_index}.mlp.gate_proj.weight"%string false false (None) None (None);
     w "model.layers.${layer_index}.mlp.up_proj.weight"%string false false (None) None (None);
     w "model.layers.${layer_index}.post_attention_layernorm.weight"%string false false (None) None (None);
     w "model.layers.${layer_index}.self_attn.k_norm.weight"%string false false (None) None (None);
     w "model.layers.${layer_index}.self_attn.k_proj.weight"%string false false (None) None (None);
     w "model.layers.${layer_index}.self_attn.q_norm.weight"%string false false (None) None (None);
     w "model.layers.${layer_index}.self_attn.q_proj.weight"%string false false (None) None (None);
     w "model.layers.${layer_index}.self_attn.v_proj.weight"%string false false (None) None (None);
     w "model.layers.${layer_index}.self_attn.o_proj.weight"%string false false (None) None (None)];
     ja_post := [w "model.norm.weight"%string false false (None) None (None);
     w "lm_head.weight"%string true true (None) None (Some ["model.embed_tokens.weight"%string])];
     ja_key := Some "num_hidden_layers"%string; ja_override := None |}.

(** qwen3_moe.json, module default *)
Definition a_qwen3_moe_default : json_arch :=
  {| ja_pre := [w "model.embed_tokens.weight"%string true false (None) None (None)];
     ja_layer := [w "model.layers.${layer_index}.input_layernorm.weight"%string false false (None) None (None);
     w "model.layers.${layer_index}.mlp.experts.down_proj"%string false false (None) None (None);
     w "model.layers.${layer_index}.mlp.experts.gate_up_proj"%string false false (None) None (None);
     w "model.layers.${layer_index}.mlp.gate.weight"%string false false (None) None (None);
     w "model.layers.${layer_index}.post_attention_layernorm.weight"%string false false (None) None (None);
     w "model.layers.${layer_index}.self_attn.k_norm.weight"%string false false (None) None (None);
     w "model.layers.${layer_index}.self_attn.k_proj.weight"%string false false (None) None (None);
     w "model.layers.${layer_index}.self_attn.q_norm.weight"%string false false (None) None (None);
     w "model.layers.${layer_index}.self_attn.q_proj.weight"%string false false (None) None (None);
     w "model.layers.${layer_index}.self_attn.v_proj.weight"%string false false (None) None (None);
     w "model.layers.${layer_index}.self_attn.o_proj.weight"%string false false (None) None (None)];
     ja_post := [w "model.norm.weight"%string false false (None) None (None);
     w "lm_head.weight"%string true true (None) None (Some ["model.embed_tokens.weight"%string])];
     ja_key := Some "num_hidden_layers"%string; ja_override := None |}.

(** qwen3_vl.json, module text_decoder *)
Definition a_qwen3_vl_text_decoder : json_arch :=
  {| ja_pre := [w "model.language_model.embed_tokens.weight"%string true false (None) None (None)];
     ja_layer := [w "model.language_model.layers.${layer_index}.input_layernorm.weight"%string false false (None) None (None);
     w "model.language_model.layers.${layer_index}.mlp.experts.down_proj"%string false false (None) None (None);
     w "model.language_model.layers.${layer_index}.mlp.experts.gate_up_proj"%string false false (None) None (None);
     w "model.language_model.layers.${layer_index}.mlp.gate.weight"%string false false (None) None (None);
     w "model.language_model.layers.${layer_index}.post_attention_layernorm.weight"%string false false (None) None (None);
     w "model.language_model.layers.${layer_index}.self_attn.k_norm.weight"%string false false (None) None (None);
     w "model.language_model.layers.${layer_index}.self_attn.k_proj.weight"%string false false (None) None (None);
     w "model.language_model.layers.${layer_index}.self_attn.q_norm.weight"%string false false (None) None (None);
     w "model.language_model.layers.${layer_index}.self_attn.q_proj.weight"%string false false (None) None (None);
     w "model.language_model.layers.${layer_index}.self_attn.v_proj.weight"%string false false (None) None (None);
     w "model.language_model.layers.${layer_index}.self_attn.o_proj.weight"%string false false (None) None (None)];
     ja_post := [w "model.language_model.norm.weight"%string false false (None) None (None);
     w "lm_head.weight"%string true true (None) None (Some ["model.language_model.embed_tokens.weight"%string])];
     ja_key := Some "text_config.num_hidden_layers"%string; ja_override := None |}.

(** qwen3_vl.json, module multi_modal_projector *)
Definition a_qwen3_vl_multi_modal_projector : json_arch :=
  {| ja_pre := [w "model.visual.merger.norm.weight"%string false false (None) None (None);
     w "model.visual.merger.norm.bias"%string false false (None) None (None);
     w "model.visual.merger.linear_fc1.weight"%string false false (None) None (None);
     w "model.visual.merger.linear_fc1.bias"%string false false (None) None (None);
     w "model.visual.merger.linear_fc2.weight"%string false false (None) None (None);
     w "model.visual.merger.linear_fc2.bias"%string false false (None) None (None)];
     ja_layer := [w "model.visual.deepstack_merger_list.${layer_index}.norm.weight"%string false false (None) None (None);
     w "model.visual.deepstack_merger_list.${layer_index}.norm.bias"%string false false (None) None (None);
     w "model.visual.deepstack_merger_list.${layer_index}.linear_fc1.weight"%string false false (None) None (None);
     w "model.visual.deepstack_merger_list.${layer_index}.linear_fc1.bias"%string false false (None) None (None);
     w "model.visual.deepstack_merger_list.${layer_index}.linear_fc2.weight"%string false false (None) None (None);
     w "model.visual.deepstack_merger_list.${layer_index}.linear_fc2.bias"%string false false (None) None (None)];
     ja_post := [];
     ja_key := None; ja_override := Some 3%Z |}.

(** qwen3_vl.json, module vision_tower *)
Definition a_qwen3_vl_vision_tower : json_arch :=
  {| ja_pre := [w "model.visual.patch_embed.proj.weight"%string true false (None) None (None);
     w "model.visual.patch_embed.proj.bias"%string false false (None) None (None);
     w "model.visual.pos_embed.weight"%string true false (None) None (None)];
     ja_layer := [w "model.visual.blocks.${layer_index}.norm1.weight"%string false false (None) None (None);
     w "model.visual.blocks.${layer_index}.norm1.bias"%string false false (None) None (None);
     w "model.visual.blocks.${layer_index}.norm2.weight"%string false false (None) None (None);
     w "model.visual.blocks.${layer_index}.norm2.bias"%string false false (None) None (None);
     w "model.visual.blocks.${layer_index}.attn.qkv.weight"%string false false (None) None (None);
     w "model.visual.blocks.${layer_index}.attn.qkv.bias"%string false false (None) None (None);
     w "model.visual.blocks.${layer_index}.attn.proj.weight"%string false false (None) None (None);
     w "model.visual.blocks.${layer_index}.attn.proj.bias"%string false false (None) None (None);
     w "model.visual.blocks.${layer_index}.mlp.linear_fc1.weight"%string false false (None) None (None);
     w "model.visual.blocks.${layer_index}.mlp.linear_fc1.bias"%string false false (None) None (None);
     w "model.visual.blocks.${layer_index}.mlp.linear_fc2.weight"%string false false (None) None (None);
     w "model.visual.blocks.${layer_index}.mlp.linear_fc2.bias"%string false false (None) None (None)];
     ja_post := [];
     ja_key := Some "vision_config.depth"%string; ja_override := None |}.

(** qwen3_vl_dense.json, module text_decoder *)
Definition a_qwen3_vl_dense_text_decoder : json_arch :=
  {| ja_pre := [w "model.language_model.embed_tokens.weight"%string true false (None) None (None)];
     ja_layer := [w "model.language_model.layers.${layer_index}.input_layernorm.weight"%string false false (None) None (None);
     w "model.language_model.layers.${layer_index}.mlp.down_proj.weight"%string false false (None) None (None);
     w "model.language_model.layers.${layer_index}.mlp.gate_proj.weight"%string false false (None) None (None);
     w "model.language_model.layers.${layer_index}.mlp.up_proj.weight"%string false false (None) None (None);
     w "model.language_model.layers.${layer_index}.post_attention_layernorm.weight"%string false false (None) None (None);
     w "model.language_model.layers.${layer_index}.self_attn.k_norm.weight"%string false false (None) None (None);
     w "model.language_model.layers.${layer_index}.self_attn.k_proj.weight"%string false false (None) None (None);
     w "model.language_model.layers.${layer_index}.self_attn.o_proj.weight"%string false false (None) None (None);
     w "model.language_model.layers.${layer_index}.self_attn.q_norm.weight"%string false false (None) None (None);
     w "model.language_model.layers.${layer_index}.self_attn.q_proj.weight"%string false false (None) None (None);
     w "model.language_model.layers.${layer_index}.self_attn.v_proj.weight"%string false false (None) None (None)];
     ja_post := [w "model.language_model.norm.weight"%string false false (None) None (None);
     w "lm_head.weight"%string true true (None) None (Some ["model.language_model.embed_tokens.weight"%string])];
     ja_key := Some "text_config.num_hidden_layers"%string; ja_override := None |}.

(** qwen3_vl_dense.json, module multi_modal_projector *)
Definition a_qwen3_vl_dense_multi_modal_projector : json_arch :=
  {| ja_pre := [w "model.visual.merger.norm.weight"%string false false (None) None (None);
     w "model.visual.merger.norm.bias"%string false false (None) None (None);
     w "model.visual.merger.linear_fc1.weight"%string false false (None) None (None);
     w "model.visual.merger.linear_fc1.bias"%string false false (None) None (None);
     w "model.visual.merger.linear_fc2.weight"%string false false (None) None (None);
     w "model.visual.merger.linear_fc2.bias"%string false false (None) None (None)];
     ja_layer := [w "model.visual.deepstack_merger_list.${layer_index}.norm.weight"%string false false (None) None (None);
     w "model.visual.deepstack_merger_list.${layer_index}.norm.bias"%string false false (None) None (None);
     w "model.visual.deepstack_merger_list.${layer_index}.linear_fc1.weight"%string false false (None) None (None);
     w "model.visual.deepstack_merger_list.${layer_index}.linear_fc1.bias"%string false false (None) None (None);
     w "model.visual.deepstack_merger_list.${layer_index}.linear_fc2.weight"%string false false (None) None (None);
     w "model.visual.deepstack_merger_list.${layer_index}.linear_fc2.bias"%string false false (None) None (None)];
     ja_post := [];
     ja_key := None; ja_override := Some 3%Z |}.

(** qwen3_vl_dense.json, module vision_tower *)
Definition a_qwen3_vl_dense_vision_tower : json_arch :=
  {| ja_pre := [w "model.visual.patch_embed.proj.weight"%string true false (None) None (None);
     w "model.visual.patch_embed.proj.bias"%string false false (None) None (None);
     w "model.visual.pos_embed.weight"%string true false (None) None (None)];
     ja_layer := [w "model.visual.blocks.${layer_index}.norm1.weight"%string false false (None) None (None);
     w "model.visual.blocks.${layer_index}.norm1.bias"%string false false (None) None (None);
     w "model.visual.blocks.${layer_index}.norm2.weight"%string false false (None) None (None);
     w "model.visual.blocks.${layer_index}.norm2.bias"%string false false (None) None (None);
     w "model.visual.blocks.${layer_index}.attn.qkv.weight"%string false false (None) None (None);
     w "model.visual.blocks.${layer_index}.attn.qkv.bias"%string false false (None) None (None);
     w "model.visual.blocks.${layer_index}.attn.proj.weight"%string false false (None) None (None);
     w "model.visual.blocks.${layer_index}.attn.proj.bias"%string false false (None) None (None);
     w "model.visual.blocks.${layer_index}.mlp.linear_fc1.weight"%string false false (None) None (None);
     w "model.visual.blocks.${layer_index}.mlp.linear_fc1.bias"%string false false (None) None (None);
     w "model.visual.blocks.${layer_index}.mlp.linear_fc2.weight"%string false false (None) None (None);
     w "model.visual.blocks.${layer_index}.mlp.linear_fc2.bias"%string false false (None) None (None)];
     ja_post := [];
     ja_key := Some "vision_config.depth"%string; ja_override := None |}.

(** roberta-masked-lm.json, module default *)
Definition a_roberta_masked_lm_default : json_arch :=
  {| ja_pre := [w "roberta.embeddings.position_embeddings.weight"%string false false (None) None (None);
     w "roberta.embeddings.word_embeddings.weight"%string true false (None) None (None);
     w "roberta.embeddings.token_type_embeddings.weight"%string false false (None) None (None);
     w "roberta.embeddings.LayerNorm.weight"%string false false (None) None (None);
     w "roberta.embeddings.LayerNorm.bias"%string false false (None) None (None);
     w "roberta.embeddings.position_ids"%string false true (None) (Some "int64"%string) (None)];
     ja_layer := [w "roberta.encoder.layer.${layer_index}.attention.output.dense.weight"%string false false (None) None (None);
     w "roberta.encoder.layer.${layer_index}.attention.output.dense.bias"%string false false (None) None (None);
     w "roberta.encoder.layer.${layer_index}.attention.output.LayerNorm.weight"%string false false (None) None (None);
     w "roberta.encoder.layer.${layer_index}.attention.output.LayerNorm.bias"%string false false (None) None (None);
     w "roberta.encoder.layer.${layer_index}.attention.self.query.weight"%string false false (None) None (None);
     w "roberta.encoder.layer.${layer_index}.attention.self.query.bias"%string false false (None) None (None);
     w "roberta.encoder.layer.${layer_index}.attention.self.key.weight"%string false false (None) None (None);
     w "roberta.encoder.layer.${layer_index}.attention.self.key.bias"%string false false (None) None (None);
     w "roberta.encoder.layer.${layer_index}.attention.self.value.weight"%string false false (None) None (None);
     w "roberta.encoder.layer.${layer_index}.attention.self.value.bias"%string false false (None) None (None);
     w "roberta.encoder.layer.${layer_index}.intermediate.dense.weight"%string false false (None) None (None);
     w "roberta.encoder.layer.${layer_index}.intermediate.dense.bias"%string false false (None) None (None);
     w "roberta.encoder.layer.${layer_index}.output.dense.weight"%string false false (None) None (None);
     w "roberta.encoder.layer.${layer_index}.output.dense.bias"%string false false (None) None (None);
     w "roberta.encoder.layer.${layer_index}.output.LayerNorm.weight"%string false false (None) None (None);
     w "roberta.encoder.layer.${layer_index}.output.LayerNorm.bias"%string false false (None) None (None)];
     ja_post := [w "lm_head.bias"%string false false (None) None (None);
     w "lm_head.dense.weight"%string false false (None) None (None);
     w "lm_head.dense.bias"%string false false (None) None (None);
     w "lm_head.layer_norm.weight"%string false false (None) None (None);
     w "lm_head.layer_norm.bias"%string false false (None) None (None);
     w "lm_head.decoder.weight"%string true true (None) None (Some ["roberta.embeddings.word_embeddings.weight"%string])];
     ja_key := Some "num_hidden_layers"%string; ja_override := None |}.

(** roberta-sequence-classification.json, module default *)
Definition a_roberta_sequence_classification_default : json_arch :=
  {| ja_pre := [w "roberta.embeddings.position_embeddings.weight"%string false false (None) None (None);
     w "roberta.embeddings.word_embeddings.weight"%string false false (None) None (None);
     w "roberta.embeddings.token_type_embeddings.weight"%string false false (None) None (None);
     w "roberta.embeddings.LayerNorm.weight"%string false false (None) None (None);
     w "roberta.embeddings.LayerNorm.bias"%string false false (None) None (None);
     w "roberta.embeddings.position_ids"%string false true (None) (Some "int64"%string) (None)];
     ja_layer := [w "roberta.encoder.layer.${layer_index}.attention.output.dense.weight"%string false false (None) None (None);
     w "roberta.encoder.layer.${layer_index}.attention.output.dense.bias"%string false false (None) None (None);
     w "roberta.encoder.layer.${layer_index}.attention.output.LayerNorm.weight"%string false false (None) None (None);
     w "roberta.encoder.layer.${layer_index}.attention.output.LayerNorm.bias"%string false false (None) None (None);
     w "roberta.encoder.layer.${layer_index}.attention.self.query.weight"%string false false (None) None (None);
     w "roberta.encoder.layer.${layer_index}.attention.self.query.bias"%string false false (None) None (None);
     w "roberta.encoder.layer.${layer_index}.attention.self.key.weight"%string false false (None) None (None);
     w "roberta.encoder.layer.${layer_index}.attention.self.key.bias"%string false false (None) None (None);
     w "roberta.encoder.layer.${layer_index}.attention.self.value.weight"%string false false (None) None (None);
     w "roberta.encoder.layer.${layer_index}.attention.self.value.bias"%string false false (None) None (None);
     w "roberta.encoder.layer.${layer_index}.intermediate.dense.weight"%string false false (None) None (None);
     w "roberta.encoder.layer.${layer_index}.intermediate.dense.bias"%string false false (None) None (None);
     w "roberta.encoder.layer.${layer_index}.output.dense.weight"%string false false (None) None (None);
     w "roberta.encoder.layer.${layer_index}.output.dense.bias"%string false false (None) None (None);
     w "roberta.encoder.layer.${layer_index}.output.LayerNorm.weight"%string false false (None) None (None);
     w "roberta.encoder.layer.${layer_index}.output.LayerNorm.bias"%string false false (None) None (None)];
     ja_post := [w "classifier.dense.weight"%string false false (None) None (None);
     w "classifier.dense.bias"%string false false (None) None (None);
     w "classifier.out_proj.weight"%string false false (None) None (None);
     w "classifier.out_proj.bias"%string false false (None) None (None)];
     ja_key := Some "num_hidden_layers"%string; ja_override := None |}.

(** roberta-token-classification.json, module default *)
Definition a_roberta_token_classification_default : json_arch :=
  {| ja_pre := [w "roberta.embeddings.position_embeddings.weight"%string false false (None) None (None);
     w "roberta.embeddings.word_embeddings.weight"%string false false (None) None (None);
     w "roberta.embeddings.token_type_embeddings.weight"%string false false (None) None (None);
     w "roberta.embeddings.LayerNorm.weight"%string false false (None) None (None);
     w "roberta.embeddings.LayerNorm.bias"%string false false (None) None (None);
     w "roberta.embeddings.position_ids"%string false true (None) (Some "int64"%string) (None)];
     ja_layer := [w "roberta.encoder.layer.${layer_index}.attention.output.dense.weight"%string false false (None) None (None);
     w "roberta.encoder.layer.${layer_index}.attention.output.dense.bias"%string false false (None) None (None);
     w "roberta.encoder.layer.${layer_index}.attention.output.LayerNorm.weight"%string false false (None) None (None);
     w "roberta.encoder.layer.${layer_index}.attention.output.LayerNorm.bias"%string false false (None) None (None);
     w "roberta.encoder.layer.${layer_index}.attention.self.query.weight"%string false false (None) None (None);
     w "roberta.encoder.layer.${layer_index}.attention.self.query.bias"%string false false (None) None (None);
     w "roberta.encoder.layer.${layer_index}.attention.self.key.weight"%string false false (None) None (None);
     w "roberta.encoder.layer.${layer_index}.attention.self.key.bias"%string false false (None) None (None);
     w "roberta.encoder.layer.${layer_index}.attention.self.value.weight"%string false false (None) None (None);
     w "roberta.encoder.layer.${layer_index}.attention.self.value.bias"%string false false (None) None (None);
     w "roberta.encoder.layer.${layer_index}.intermediate.dense.weight"%string false false (None) None (None);
     w "roberta.encoder.layer.${layer_index}.intermediate.dense.bias"%string false false (None) None (None);
     w "roberta.encoder.layer.${layer_index}.output.dense.weight"%string false false (None) None (None);
     w "roberta.encoder.layer.${layer_index}.output.dense.bias"%string false false (None) None (None);
     w "roberta.encoder.layer.${layer_index}.output.LayerNorm.weight"%string false false (None) None (None);
     w "roberta.encoder.layer.${layer_index}.output.LayerNorm.bias"%string false false (None) None (None)];
     ja_post := [w "classifier.weight"%string false false (None) None (None);
     w "classifier.bias"%string false false (None) None (None)];
     ja_key := Some "num_hidden_layers"%string; ja_override := None |}.

(** roberta.json, module default *)
Definition a_roberta_default : json_arch :=
  {| ja_pre := [w "roberta.embeddings.position_embeddings.weight"%string false false (None) None (None);
     w "roberta.embeddings.word_embeddings.weight"%string false false (None) None (None);
     w "roberta.embeddings.token_type_embeddings.weight"%string false false (None) None (None);
     w "roberta.embeddings.LayerNorm.weight"%string false false (None) None (None);
     w "roberta.embeddings.LayerNorm.bias"%string false false (None) None (None);
     w "roberta.embeddings.position_ids"%string false true (None) (Some "int64"%string) (None)];
     ja_layer := [w "roberta.encoder.layer.${layer_index}.attention.output.dense.weight"%string false false (None) None (None);
     w "roberta.encoder.layer.${layer_index}.attention.output.dense.bias"%string false false (None) None (None);
     w "roberta.encoder.layer.${layer_index}.attention.output.LayerNorm.weight"%string false false (None) None (None);
     w "roberta.encoder.layer.${layer_index}.attention.output.LayerNorm.bias"%string false false (None) None (None);
     w "roberta.encoder.layer.${layer_index}.attention.self.query.weight"%string false false (None) None (None);
     w "roberta.encoder.layer.${layer_index}.attention.self.query.bias"%string false false (None) None (None);
     w "roberta.encoder.layer.${layer_index}.attention.self.key.weight"%string false false (None) None (None);
     w "roberta.encoder.layer.${layer_index}.attention.self.key.bias"%string false false (None) None (None);
     w "roberta.encoder.layer.${layer_index}.attention.self.value.weight"%string false false (None) None (None);
     w "roberta.encoder.layer.${layer_index}.attention.self.value.bias"%string false false (None) None (None);
     w "roberta.encoder.layer.${layer_index}.intermediate.dense.weight"%string false false (None) None (None);
     w "roberta.encoder.layer.${layer_index}.intermediate.dense.bias"%string false false (None) None (None);
     w "roberta.encoder.layer.${layer_index}.output.dense.weight"%string false false (None) None (None);
     w "roberta.encoder.layer.${layer_index}.output.dense.bias"%string false false (None) None (None);
     w "roberta.encoder.layer.${layer_index}.output.LayerNorm.weight"%string false false (None) None (None);
     w "roberta.encoder.layer.${layer_index}.output.LayerNorm.bias"%string false false (None) None (None)];
     ja_post := [w "pooler.dense.weight"%string false false (None) None (None);
     w "pooler.dense.bias"%string false false (None) None (None)];
     ja_key := Some "num_hidden_layers"%string; ja_override := None |}.

(** solar.json, module default *)
Definition a_solar_default : json_arch :=
  {| ja_pre := [w "model.embed_tokens.weight"%string true false (None) None (None)];
     ja_layer := [w "model.layers.${layer_index}.input_layernorm.weight"%string false false (None) None (None);
     w "model.layers.${layer_index}.self_attn.k_proj.weight"%string false false (None) None (None);
     w "model.layers.${layer_index}.self_attn.q_proj.weight"%string false false (None) None (None);
     w "model.layers.${layer_index}.self_attn.v_proj.weight"%string false false (None) None (None);
     w "model.layers.${layer_index}.self_attn.o_proj.weight"%string false false (None) None (None);
     w "model.layers.${layer_index}.post_attention_layernorm.weight"%string false false (None) None (None);
     w "model.layers.${layer_index}.mlp.gate_proj.weight"%string false false (None) None (None);
     w "model.layers.${layer_index}.mlp.up_proj.weight"%string false false (None) None (None);
     w "model.layers.${layer_index}.mlp.down_proj.weight"%string false false (None) None (None)];
     ja_post := [w "model.norm.weight"%string false false (None) None (None);
     w "lm_head.weight"%string true true (None) None (Some ["model.lm_head.weight"%string])];
     ja_key := Some "num_hidden_layers"%string; ja_override := None |}.

(** stablelm.json, module default *)
Definition a_stablelm_default : json_arch :=
  {| ja_pre := [w "model.embed_tokens.weight"%string true false (None) None (None)];
     ja_layer := [w "model.layers.${layer_index}.input_layernorm.weight"%string false false (None) None (None);
     w "model.layers.${layer_index}.input_layernorm.bias"%string false false (None) None (None);
     w "model.layers.${layer_index}.self_attn.q_proj.weight"%string false false (None) None (None);
     w "model.layers.${layer_index}.self_attn.k_proj.weight"%string false false (None) None (None);
     w "model.layers.${layer_index}.self_attn.v_proj.weight"%string false false (None) None (None);
     w "model.layers.${layer_index}.self_attn.o_proj.weight"%string false false (None) None (None);
     w "model.layers.${layer_index}.post_attention_layernorm.weight"%string false false (None) None (None);
     w "model.layers.${layer_index}.post_attention_layernorm.bias"%string false false (None) None (None);
     w "model.layers.${layer_index}.mlp.up_proj.weight"%string false false (None) None (None);
     w "model.layers.${layer_index}.mlp.gate_proj.weight"%string false false (None) None (None);
     w "model.layers.${layer_index}.mlp.down_proj.weight"%string false false (None) None (None)];
     ja_post := [w "model.norm.weight"%string false false (None) None (None);
     w "lm_head.weight"%string true false (None) None (None)];
     ja_key := Some "num_hidden_layers"%string; ja_override := None |}.

(** stablelm2.json, module default *)
Definition a_stablelm2_default : json_arch :=
  {| ja_pre := [w "model.embed_tokens.weight"%string true false (None) None (None)];
     ja_layer := [w "model.layers.${layer_index}.input_layernorm.weight"%string false false (None) None (None);
     w "model.layers.${layer_index}.input_layernorm.bias"%string false false (None) None (None);
     w "model.layers.${layer_index}.mlp.down_proj.weight"%string false false (None) None (None);
     w "model.layers.${layer_index}.mlp.gate_proj.weight"%string false false (None) None (None);
     w "model.layers.${layer_index}.mlp.up_proj.weight"%string false false (None) None (None);
     w "model.layers.${layer_index}.post_attention_layernorm.weight"%string false false (None) None (None);
     w "model.layers.${layer_index}.post_attention_layernorm.bias"%string false false (None) None (None);
     w "model.layers.${layer_index}.self_attn.q_proj.weight"%string false false (None) None (None);
     w "model.layers.${layer_index}.self_attn.q_proj.bias"%string false true (None) None (None);
     w "model.layers.${layer_index}.self_attn.k_proj.weight"%string false false (None) None (None);
     w "model.layers.${layer_index}.self_attn.k_proj.bias"%string false true (None) None (None);
     w "model.layers.${layer_index}.self_attn.v_proj.weight"%string false false (None) None (None);
     w "model.layers.${layer_index}.self_attn.v_proj.bias"%string false true (None) None (None);
     w "model.layers.${layer_index}.self_attn.o_proj.weight"%string false false (None) None (None)];
     ja_post := [w "model.norm.weight"%string false false (None) None (None);
     w "model.norm.bias"%string false false (None) None (None);
     w "lm_head.weight"%string true false (None) None (None)];
     ja_key := Some "num_hidden_layers"%string; ja_override := None |}.

(** starcoder2.json, module default *)
Definition a_starcoder2_default : json_arch :=
  {| ja_pre := [w "model.embed_tokens.weight"%string true false (None) None (None)];
     ja_layer := [w "model.layers.${layer_index}.input_layernorm.bias"%string false false (None) None (None);
     w "model.layers.${layer_index}.input_layernorm.weight"%string false false (None) None (None);
     w "model.layers.${layer_index}.self_attn.q_proj.bias"%string false false (None) None (None);
     w "model.layers.${layer_index}.self_attn.q_proj.weight"%string false false (None) None (None);
     w "model.layers.${layer_index}.self_attn.k_proj.bias"%string false false (None) None (None);
     w "model.layers.${layer_index}.self_attn.k_proj.weight"%string false false (None) None (None);
     w "model.layers.${layer_index}.self_attn.v_proj.bias"%string false false (None) None (None);
     w "model.layers.${layer_index}.self_attn.v_proj.weight"%string false false (None) None (None);
     w "model.layers.${layer_index}.self_attn.o_proj.bias"%string false false (None) None (None);
     w "model.layers.${layer_index}.self_attn.o_proj.weight"%string false false (None) None (None);
     w "model.layers.${layer_index}.post_attention_layernorm.bias"%string false false (None) None (None);
     w "model.layers.${layer_index}.post_attention_layernorm.weight"%string false false (None) None (None);
     w "model.layers.${layer_index}.mlp.c_fc.bias"%string false false (None) None (None);
     w "model.layers.${layer_index}.mlp.c_fc.weight"%string false false (None) None (None);
     w "model.layers.${layer_index}.mlp.c_proj.bias"%string false false (None) None (None);
     w "model.layers.${layer_index}.mlp.c_proj.weight"%string false false (None) None (None)];
     ja_post := [w "lm_head.weight"%string true true (None) None (Some ["model.embed_tokens.weight"%string]);
     w "model.norm.bias"%string false false (None) None (None);
     w "model.norm.weight"%string false false (None) None (None)];
     ja_key := Some "num_hidden_layers"%string; ja_override := None |}.

(** t5.json, module decoder *)
Definition a_t5_decoder : json_arch :=
  {| ja_pre := [w "decoder.embed_tokens.weight"%string true true (None) None (Some ["shared.weight"%string; "lm_head.weight"%string; "encoder.embed_tokens.weight"%string])];
     ja_layer := [w "decoder.block.${layer_index}.layer.0.layer_norm.weight"%string false false (None) None (None);
     w "decoder.block.${layer_index}.layer.0.SelfAttention.q.weight"%string false false (None) None (None);
     w "decoder.block.${layer_index}.layer.0.SelfAttention.k.weight"%string false false (None) None (None);
     w "decoder.block.${layer_index}.layer.0.SelfAttention.v.weight"%string false false (None) None (None);
     w "decoder.block.${layer_index}.layer.0.SelfAttention.o.weight"%string false false (None) None (None);
     w "decoder.block.${layer_index}.layer.0.SelfAttention.relative_attention_bias.weight"%string false true (None) None (None);
     w "decoder.block.${layer_index}.layer.1.EncDecAttention.q.weight"%string false false (None) None (None);
     w "decoder.block.${layer_index}.layer.1.EncDecAttention.k.weight"%string false false (None) None (None);
     w "decoder.block.${layer_index}.layer.1.EncDecAttention.v.weight"%string false false (None) None (None);
     w "decoder.block.${layer_index}.layer.1.EncDecAttention.o.weight"%string false false (None) None (None);
     w "decoder.block.${layer_index}.layer.1.layer_norm.weight"%string false false (None) None (None);
     w "decoder.block.${layer_index}.layer.2.DenseReluDense.wi_0.weight"%string false false (None) None (None);
     w "decoder.block.${layer_index}.layer.2.DenseReluDense.wi_1.weight"%string false false (None) None (None);
     w "decoder.block.${layer_index}.layer.2.DenseReluDense.wo.weight"%string false false (None) None (None);
     w "decoder.block.${layer_index}.layer.2.layer_norm.weight"%string false false (None) None (None)];
     ja_post := [w "decoder.final_layer_norm.weight"%string false false (None) None (None)];
     ja_key := Some "num_decoder_layers"%string; ja_override := None |}.

(** t5.json, module encoder *)
Definition a_t5_encoder : json_arch :=
  {| ja_pre := [w "encoder.embed_tokens.weight"%string true true (None) None (Some ["shared.weight"%string; "lm_head.weight"%string; "decoder.embed_tokens.weight"%string])];
     ja_layer := [w "encoder.block.${layer_index}.layer.0.layer_norm.weight"%string false false (None) None (None);
     w "encoder.block.${layer_index}.layer.0.SelfAttention.q.weight"%string false false (None) None (None);
     w "encoder.block.${layer_index}.layer.0.SelfAttention.k.weight"%string false false (None) None (None);
     w "encoder.block.${layer_index}.layer.0.SelfAttention.v.weight"%string false false (None) None (None);
     w "encoder.block.${layer_index}.layer.0.SelfAttention.o.weight"%string false false (None) None (None);
     w "encoder.block.${layer_index}.layer.0.SelfAttention.relative_attention_bias.weight"%string false true (None) None (None);
     w "encoder.block.${layer_index}.layer.1.DenseReluDense.wi_0.weight"%string false false (None) None (None);
     w "encoder.block.${layer_index}.layer.1.DenseReluDense.wi_1.weight"%string false false (None) None (None);
     w "encoder.block.${layer_index}.layer.1.DenseReluDense.wo.weight"%string false false (None) None (None);
     w "encoder.block.${layer_index}.layer.1.layer_norm.weight"%string false false (None) None (None)];
     ja_post := [w "encoder.final_layer_norm.weight"%string false false (None) None (None)];
     ja_key := Some "num_hidden_layers"%string; ja_override := None |}.

(** t5.json, module shared *)
Definition a_t5_shared : json_arch :=
  {| ja_pre := [w "shared.weight"%string true false (None) None (None)];
     ja_layer := [];
     ja_post := [w "lm_head.weight"%string true true (None) None (Some ["shared.weight"%string; "encoder.embed_tokens.weight"%string; "decoder.embed_tokens.weight"%string])];
     ja_key := None; ja_override := Some 0%Z |}.

(** whisper.json, module decoder *)
Definition a_whisper_decoder : json_arch :=
  {| ja_pre := [w "embed_tokens.weight"%string true false (None) None (None);
     w "embed_positions.weight"%string false false (None) None (None)];
     ja_layer := [w "layers.${layer_index}.encoder_attn.k_proj.weight"%string false false (None) None (None);
     w "layers.${layer_index}.encoder_attn.out_proj.bias"%string false false (None) None (None);
     w "layers.${layer_index}.encoder_attn.out_proj.weight"%string false false (None) None (None);
     w "layers.${layer_index}.encoder_attn.q_proj.bias"%string false false (None) None (None);
     w "layers.${layer_index}.encoder_attn.q_proj.weight"%string false false (None) None (None);
     w "layers.${layer_index}.encoder_attn.v_proj.bias"%string false false (None) None (None);
     w "layers.${layer_index}.encoder_attn.v_proj.weight"%string false false (None) None (None);
     w "layers.${layer_index}.encoder_attn_layer_norm.bias"%string false false (None) None (None);
     w "layers.${layer_index}.encoder_attn_layer_norm.weight"%string false false (None) None (None);
     w "layers.${layer_index}.fc1.bias"%string false false (None) None (None);
     w "layers.${layer_index}.fc1.weight"%string false false (None) None (None);
     w "layers.${layer_index}.fc2.bias"%string false false (None) None (None);
     w "layers.${layer_index}.fc2.weight"%string false false (None) None (None);
     w "layers.${layer_index}.final_layer_norm.bias"%string false false (None) None (None);
     w "layers.${layer_index}.final_layer_norm.weight"%string false false (None) None (None);
     w "layers.${layer_index}.self_attn.k_proj.weight"%string false false (None) None (None);
     w "layers.${layer_index}.self_attn.out_proj.bias"%string false false (None) None (None);
     w "layers.${layer_index}.self_attn.out_proj.weight"%string false false (None) None (None);
     w "layers.${layer_index}.self_attn.q_proj.bias"%string false false (None) None (None);
     w "layers.${layer_index}.self_attn.q_proj.weight"%string false false (None) None (None);
     w "layers.${layer_index}.self_attn.v_proj.bias"%string false false (None) None (None);
     w "layers.${layer_index}.self_attn.v_proj.weight"%string false false (None) None (None);
     w "layers.${layer_index}.self_attn_layer_norm.bias"%string false false (None) None (None);
     w "layers.${layer_index}.self_attn_layer_norm.weight"%string false false (None) None (None)];
     ja_post := [w "layer_norm.bias"%string false false (None) None (None);
     w "layer_norm.weight"%string false false (None) None (None)];
     ja_key := Some "decoder_layers"%string; ja_override := None |}.

(** whisper.json, module encoder *)
Definition a_whisper_encoder : json_arch :=
  {| ja_pre := [w "embed_positions.weight"%string false false (None) None (None);
     w "conv1.bias"%string false false (None) None (None);
     w "conv1.weight"%string false false (None) None (None);
     w "conv2.bias"%string false false (None) None (None);
     w "conv2.weight"%string false false (None) None (None)];
     ja_layer := [w "layers.${layer_index}.fc1.bias"%string false false (None) None (None);
     w "layers.${layer_index}.fc1.weight"%string false false (None) None (None);
     w "layers.${layer_index}.fc2.bias"%string false false (None) None (None);
     w "layers.${layer_index}.fc2.weight"%string false false (None) None (None);
     w "layers.${layer_index}.final_layer_norm.bias"%string false false (None) None (None);
     w "layers.${layer_index}.final_layer_norm.weight"%string false false (None) None (None);
     w "layers.${layer_index}.self_attn.k_proj.weight"%string false false (None) None (None);
     w "layers.${layer_index}.self_attn.out_proj.bias"%string false false (None) None (None);
     w "layers.${layer_index}.self_attn.out_proj.weight"%string false false (None) None (None);
     w "layers.${layer_index}.self_attn.q_proj.bias"%string false false (None) None (None);
     w "layers.${layer_index}.self_attn.q_proj.weight"%string false false (None) None (None);
     w "layers.${layer_index}.self_attn.v_proj.bias"%string false false (None) None (None);
     w "layers.${layer_index}.self_attn.v_proj.weight"%string false false (None) None (None);
     w "layers.${layer_index}.self_attn_layer_norm.bias"%string false false (None) None (None);
     w "layers.${layer_index}.self_attn_layer_norm.weight"%string false false (None) None (None)];
     ja_post := [w "layer_norm.bias"%string false false (None) None (None);
     w "layer_norm.weight"%string false false (None) None (None)];
     ja_key := Some "encoder_layers"%string; ja_override := None |}.

Definition shipped : list (string * json_arch) :=
  [("afmoe_partial/default"%string, a_afmoe_partial_default);
   ("apertus/default"%string, a_apertus_default);
   ("arcee/default"%string, a_arcee_default);
   ("baichuan/default"%string, a_baichuan_default);
   ("bert-masked-lm/default"%string, a_bert_masked_lm_default);
   ("bert-sequence-classification/default"%string, a_bert_sequence_classification_default);
   ("bert/default"%string, a_bert_default);
   ("chatglm/default"%string, a_chatglm_default);
   ("cohere/default"%string, a_cohere_default);
   ("cohere2/default"%string, a_cohere2_default);
   ("distilbert-masked-lm/default"%string, a_distilbert_masked_lm_default);
   ("distilbert-sequence-classification/default"%string, a_distilbert_sequence_classification_default);
   ("distilbert-token-classification/default"%string, a_distilbert_token_classification_default);
   ("distilbert/default"%string, a_distilbert_default);
   ("exaone/default"%string, a_exaone_default);
   ("falcon/default"%string, a_falcon_default);
   ("gemma/default"%string, a_gemma_default);
   ("gemma2/default"%string, a_gemma2_default);
   ("gemma3/default"%string, a_gemma3_default);
   ("gemma3vl/text_decoder"%string, a_gemma3vl_text_decoder);
   ("gemma3vl/multi_modal_projector"%string, a_gemma3vl_multi_modal_projector);
   ("gemma3vl/vision_tower"%string, a_gemma3vl_vision_tower);
   ("glm4/default"%string, a_glm4_default);
   ("glm4moe/default"%string, a_glm4moe_default);
   ("gpt-neox/default"%string, a_gpt_neox_default);
   ("gpt2-sequence-classification/default"%string, a_gpt2_sequence_classification_default);
   ("gpt2/default"%string, a_gpt2_default);
   ("gptbigcode/default"%string, a_gptbigcode_default);
   ("granite/default"%string, a_granite_default);
   ("granite4moehybrid/default"%string, a_granite4moehybrid_default);
   ("internlm2/default"%string, a_internlm2_default);
   ("jais/default"%string, a_jais_default);
   ("lfm2/default"%string, a_lfm2_default);
   ("llama-sequence-classification/default"%string, a_llama_sequence_classification_default);
   ("llama/default"%string, a_llama_default);
   ("llama4/text_decoder"%string, a_llama4_text_decoder);
   ("llama4/multi_modal_projector"%string, a_llama4_multi_modal_projector);
   ("llama4/vision_model"%string, a_llama4_vision_model);
   ("mamba/default"%string, a_mamba_default);
   ("mistral/default"%string, a_mistral_default);
   ("mistral3/text_decoder"%string, a_mistral3_text_decoder);
   ("mistral3/multi_modal_projector"%string, a_mistral3_multi_modal_projector);
   ("mistral3/vision_tower"%string, a_mistral3_vision_tower);
   ("mixtral/default"%string, a_mixtral_default);
   ("olmo2/default"%string, a_olmo2_default);
   ("phi-1/default"%string, a_phi_1_default);
   ("phi2-old/default"%string, a_phi2_old_default);
   ("phi2/default"%string, a_phi2_default);
   ("phi3-small/default"%string, a_phi3_small_default);
   ("phi3/default"%string, a_phi3_default);
   ("qwen/default"%string, a_qwen_default);
   ("qwen2/default"%string, a_qwen2_default);
   ("qwen2_5_vl/text_decoder"%string, a_qwen2_5_vl_text_decoder);
   ("qwen2_5_vl/multi_modal_projector"%string, a_qwen2_5_vl_multi_modal_projector);
   ("qwen2_5_vl/vision_tower"%string, a_qwen2_5_vl_vision_tower);
   ("qwen2_vl/text_decoder"%string, a_qwen2_vl_text_decoder);
   ("qwen2_vl/multi_modal_projector"%string, a_qwen2_vl_multi_modal_projector);
   ("qwen2_vl/vision_tower"%string, a_qwen2_vl_vision_tower);
   ("qwen3/default"%string, a_qwen3_default);
   ("qwen3_moe/default"%string, a_qwen3_moe_default);
   ("qwen3_vl/text_decoder"%string, a_qwen3_vl_text_decoder);
   ("qwen3_vl/multi_modal_projector"%string, a_qwen3_vl_multi_modal_projector);
   ("qwen3_vl/vision_tower"%string, a_qwen3_vl_vision_tower);
   ("qwen3_vl_dense/text_decoder"%string, a_qwen3_vl_dense_text_decoder);
   ("qwen3_vl_dense/multi_modal_projector"%string, a_qwen3_vl_dense_multi_modal_projector);
   ("qwen3_vl_dense/vision_tower"%string, a_qwen3_vl_dense_vision_tower);
   ("roberta-masked-lm/default"%string, a_roberta_masked_lm_default);
   ("roberta-sequence-classification/default"%string, a_roberta_sequence_classification_default);
   ("roberta-token-classification/default"%string, a_roberta_token_classification_default);
   ("roberta/default"%string, a_roberta_default);
   ("solar/default"%string, a_solar_default);
   ("stablelm/default"%string, a_stablelm_default);
   ("stablelm2/default"%string, a_stablelm2_default);
   ("starcoder2/default"%string, a_starcoder2_default);
   ("t5/decoder"%string, a_t5_decoder);
   ("t5/encoder"%string, a_t5_encoder);
   ("t5/shared"%string, a_t5_shared);
   ("whisper/decoder"%string, a_whisper_decoder);
   ("whisper/encoder"%string, a_whisper_encoder)].
