(** The definitions of mergekit/_data/architectures/*.json as a whole: the modules with their prefixes, the architecture
    names, the model type and the other fields. Generated mechanically from the JSON files; the weights are in Data.v. *)
From Verif.Base Require Import Py.
From Verif.Arch Require Import Model Data Choose.
Local Open Scope string_scope.
Local Open Scope list_scope.

(** afmoe_partial.json *)
Definition f_afmoe_partial : architecture :=
  {| ar_modules := [("default", {| me_info := MJson {| jd_type := "_afmoe_partial"; jd_names := ["_AfmoePartialForCausalLM"]; jd_arch := a_afmoe_partial_default |}; me_prefix := None; me_subfolder := None |})];
     ar_names := ["_AfmoePartialForCausalLM"]; ar_type := "_afmoe_partial"; ar_tagalong := None; ar_vocab := None |}.

(** apertus.json *)
Definition f_apertus : architecture :=
  {| ar_modules := [("default", {| me_info := MJson {| jd_type := "apertus"; jd_names := ["ApertusForCausalLM"]; jd_arch := a_apertus_default |}; me_prefix := None; me_subfolder := None |})];
     ar_names := ["ApertusForCausalLM"]; ar_type := "apertus"; ar_tagalong := None; ar_vocab := None |}.

(** arcee.json *)
Definition f_arcee : architecture :=
  {| ar_modules := [("default", {| me_info := MJson {| jd_type := "arcee"; jd_names := ["ArceeForCausalLM"]; jd_arch := a_arcee_default |}; me_prefix := None; me_subfolder := None |})];
     ar_names := ["ArceeForCausalLM"]; ar_type := "arcee"; ar_tagalong := None; ar_vocab := None |}.

(** baichuan.json *)
Definition f_baichuan : architecture :=
  {| ar_modules := [("default", {| me_info := MJson {| jd_type := "baichuan"; jd_names := ["BaichuanForCausalLM"]; jd_arch := a_baichuan_default |}; me_prefix := None; me_subfolder := None |})];
     ar_names := ["BaichuanForCausalLM"]; ar_type := "baichuan"; ar_tagalong := None; ar_vocab := None |}.

(** bert-masked-lm.json *)
Definition f_bert_masked_lm : architecture :=
  {| ar_modules := [("default", {| me_info := MJson {| jd_type := "bert"; jd_names := ["BertForMaskedLM"]; jd_arch := a_bert_masked_lm_default |}; me_prefix := None; me_subfolder := None |})];
     ar_names := ["BertForMaskedLM"]; ar_type := "bert"; ar_tagalong := None; ar_vocab := None |}.

(** bert-sequence-classification.json *)
Definition f_bert_sequence_classification : architecture :=
  {| ar_modules := [("default", {| me_info := MJson {| jd_type := "bert"; jd_names := ["BertForSequenceClassification"; "BertForMultipleChoice"; "BertForTokenClassification"]; jd_arch := a_bert_sequence_classification_default |}; me_prefix := None; me_subfolder := None |})];
     ar_names := ["BertForSequenceClassification"; "BertForMultipleChoice"; "BertForTokenClassification"]; ar_type := "bert"; ar_tagalong := None; ar_vocab := None |}.

(** bert.json *)
Definition f_bert : architecture :=
  {| ar_modules := [("default", {| me_info := MJson {| jd_type := "bert"; jd_names := ["BertModel"]; jd_arch := a_bert_default |}; me_prefix := None; me_subfolder := None |})];
     ar_names := ["BertModel"]; ar_type := "bert"; ar_tagalong := None; ar_vocab := None |}.

(** chatglm.json *)
Definition f_chatglm : architecture :=
  {| ar_modules := [("default", {| me_info := MJson {| jd_type := "chatglm"; jd_names := ["ChatGLMModel"]; jd_arch := a_chatglm_default |}; me_prefix := None; me_subfolder := None |})];
     ar_names := ["ChatGLMModel"]; ar_type := "chatglm"; ar_tagalong := None; ar_vocab := None |}.

(** cohere.json *)
Definition f_cohere : architecture :=
  {| ar_modules := [("default", {| me_info := MJson {| jd_type := "cohere"; jd_names := ["CohereForCausalLM"]; jd_arch := a_cohere_default |}; me_prefix := None; me_subfolder := None |})];
     ar_names := ["CohereForCausalLM"]; ar_type := "cohere"; ar_tagalong := None; ar_vocab := None |}.

(** cohere2.json *)
Definition f_cohere2 : architecture :=
  {| ar_modules := [("default", {| me_info := MJson {| jd_type := "cohere2"; jd_names := ["Cohere2ForCausalLM"]; jd_arch := a_cohere2_default |}; me_prefix := None; me_subfolder := None |})];
     ar_names := ["Cohere2ForCausalLM"]; ar_type := "cohere2"; ar_tagalong := None; ar_vocab := None |}.

(** distilbert-masked-lm.json *)
Definition f_distilbert_masked_lm : architecture :=
  {| ar_modules := [("default", {| me_info := MJson {| jd_type := "distilbert"; jd_names := ["DistilBertForMaskedLM"]; jd_arch := a_distilbert_masked_lm_default |}; me_prefix := None; me_subfolder := None |})];
     ar_names := ["DistilBertForMaskedLM"]; ar_type := "distilbert"; ar_tagalong := None; ar_vocab := None |}.

(** distilbert-sequence-classification.json *)
Definition f_distilbert_sequence_classification : architecture :=
  {| ar_modules := [("default", {| me_info := MJson {| jd_type := "distilbert"; jd_names := ["DistilBertForSequenceClassification"]; jd_arch := a_distilbert_sequence_classification_default |}; me_prefix := None; me_subfolder := None |})];
     ar_names := ["DistilBertForSequenceClassification"]; ar_type := "distilbert"; ar_tagalong := None; ar_vocab := None |}.

(** distilbert-token-classification.json *)
Definition f_distilbert_token_classification : architecture :=
  {| ar_modules := [("default", {| me_info := MJson {| jd_type := "distilbert"; jd_names := ["DistilBertForTokenClassification"]; jd_arch := a_distilbert_token_classification_default |}; me_prefix := None; me_subfolder := None |})];
     ar_names := ["DistilBertForTokenClassification"]; ar_type := "distilbert"; ar_tagalong := None; ar_vocab := None |}.

(** distilbert.json *)
Definition f_distilbert : architecture :=
  {| ar_modules := [("default", {| me_info := MJson {| jd_type := "distilbert"; jd_names := ["DistilBertModel"]; jd_arch := a_distilbert_default |}; me_prefix := None; me_subfolder := None |})];
     ar_names := ["DistilBertModel"]; ar_type := "distilbert"; ar_tagalong := None; ar_vocab := None |}.

(** exaone.json *)
Definition f_exaone : architecture :=
  {| ar_modules := [("default", {| me_info := MJson {| jd_type := "exaone"; jd_names := ["ExaoneForCausalLM"]; jd_arch := a_exaone_default |}; me_prefix := None; me_subfolder := None |})];
     ar_names := ["ExaoneForCausalLM"]; ar_type := "exaone"; ar_tagalong := None; ar_vocab := None |}.

(** falcon.json *)
Definition f_falcon : architecture :=
  {| ar_modules := [("default", {| me_info := MJson {| jd_type := "falcon"; jd_names := ["FalconForCausalLM"]; jd_arch := a_falcon_default |}; me_prefix := None; me_subfolder := None |})];
     ar_names := ["FalconForCausalLM"]; ar_type := "falcon"; ar_tagalong := None; ar_vocab := None |}.

(** gemma.json *)
Definition f_gemma : architecture :=
  {| ar_modules := [("default", {| me_info := MJson {| jd_type := "gemma"; jd_names := ["GemmaForCausalLM"]; jd_arch := a_gemma_default |}; me_prefix := None; me_subfolder := None |})];
     ar_names := ["GemmaForCausalLM"]; ar_type := "gemma"; ar_tagalong := None; ar_vocab := None |}.

(** gemma2.json *)
Definition f_gemma2 : architecture :=
  {| ar_modules := [("default", {| me_info := MJson {| jd_type := "gemma2"; jd_names := ["Gemma2ForCausalLM"]; jd_arch := a_gemma2_default |}; me_prefix := None; me_subfolder := None |})];
     ar_names := ["Gemma2ForCausalLM"]; ar_type := "gemma2"; ar_tagalong := None; ar_vocab := None |}.

(** gemma3.json *)
Definition f_gemma3 : architecture :=
  {| ar_modules := [("default", {| me_info := MJson {| jd_type := "gemma3_text"; jd_names := ["Gemma3ForCausalLM"]; jd_arch := a_gemma3_default |}; me_prefix := None; me_subfolder := None |})];
     ar_names := ["Gemma3ForCausalLM"]; ar_type := "gemma3_text"; ar_tagalong := None; ar_vocab := None |}.

(** gemma3vl.json *)
Definition f_gemma3vl : architecture :=
  {| ar_modules := [("text_decoder", {| me_info := MJson {| jd_type := "gemma3_text"; jd_names := ["Gemma3ForCausalLM"]; jd_arch := a_gemma3vl_text_decoder |}; me_prefix := Some "language_model."; me_subfolder := None |});
       ("multi_modal_projector", {| me_info := MJson {| jd_type := "gemma3_mmproj"; jd_names := []; jd_arch := a_gemma3vl_multi_modal_projector |}; me_prefix := Some "multi_modal_projector."; me_subfolder := None |});
       ("vision_tower", {| me_info := MJson {| jd_type := "siglip_vision_model"; jd_names := []; jd_arch := a_gemma3vl_vision_tower |}; me_prefix := Some "vision_tower.vision_model."; me_subfolder := None |})];
     ar_names := ["Gemma3ForConditionalGeneration"]; ar_type := "gemma3"; ar_tagalong := Some ["preprocessor_config.json"; "processor_config.json"]; ar_vocab := Some "text_config.vocab_size" |}.

(** glm4.json *)
Definition f_glm4 : architecture :=
  {| ar_modules := [("default", {| me_info := MJson {| jd_type := "glm4"; jd_names := ["Glm4ForCausalLM"]; jd_arch := a_glm4_default |}; me_prefix := None; me_subfolder := None |})];
     ar_names := ["Glm4ForCausalLM"]; ar_type := "glm4"; ar_tagalong := None; ar_vocab := None |}.

(** glm4moe.json *)
Definition f_glm4moe : architecture :=
  {| ar_modules := [("default", {| me_info := MJson {| jd_type := "glm4_moe"; jd_names := ["Glm4MoeForCausalLM"]; jd_arch := a_glm4moe_default |}; me_prefix := None; me_subfolder := None |})];
     ar_names := ["Glm4MoeForCausalLM"]; ar_type := "glm4_moe"; ar_tagalong := None; ar_vocab := None |}.

(** gpt-neox.json *)
Definition f_gpt_neox : architecture :=
  {| ar_modules := [("default", {| me_info := MJson {| jd_type := "gpt_neox"; jd_names := ["GPTNeoXForCausalLM"]; jd_arch := a_gpt_neox_default |}; me_prefix := None; me_subfolder := None |})];
     ar_names := ["GPTNeoXForCausalLM"]; ar_type := "gpt_neox"; ar_tagalong := None; ar_vocab := None |}.

(** gpt2-sequence-classification.json *)
Definition f_gpt2_sequence_classification : architecture :=
  {| ar_modules := [("default", {| me_info := MJson {| jd_type := "gpt2"; jd_names := ["GPT2ForSequenceClassification"]; jd_arch := a_gpt2_sequence_classification_default |}; me_prefix := None; me_subfolder := None |})];
     ar_names := ["GPT2ForSequenceClassification"]; ar_type := "gpt2"; ar_tagalong := None; ar_vocab := None |}.

(** gpt2.json *)
Definition f_gpt2 : architecture :=
  {| ar_modules := [("default", {| me_info := MJson {| jd_type := "gpt2"; jd_names := ["GPT2LMHeadModel"]; jd_arch := a_gpt2_default |}; me_prefix := None; me_subfolder := None |})];
     ar_names := ["GPT2LMHeadModel"]; ar_type := "gpt2"; ar_tagalong := None; ar_vocab := None |}.

(** gptbigcode.json *)
Definition f_gptbigcode : architecture :=
  {| ar_modules := [("default", {| me_info := MJson {| jd_type := "gpt_bigcode"; jd_names := ["GPTBigCodeForCausalLM"]; jd_arch := a_gptbigcode_default |}; me_prefix := None; me_subfolder := None |})];
     ar_names := ["GPTBigCodeForCausalLM"]; ar_type := "gpt_bigcode"; ar_tagalong := None; ar_vocab := None |}.

(** granite.json *)
Definition f_granite : architecture :=
  {| ar_modules := [("default", {| me_info := MJson {| jd_type := "granite"; jd_names := ["GraniteForCausalLM"]; jd_arch := a_granite_default |}; me_prefix := None; me_subfolder := None |})];
     ar_names := ["GraniteForCausalLM"]; ar_type := "granite"; ar_tagalong := None; ar_vocab := None |}.

(** granite4moehybrid.json *)
Definition f_granite4moehybrid : architecture :=
  {| ar_modules := [("default", {| me_info := MJson {| jd_type := "granitemoehybrid"; jd_names := ["GraniteMoeHybridForCausalLM"]; jd_arch := a_granite4moehybrid_default |}; me_prefix := None; me_subfolder := None |})];
     ar_names := ["GraniteMoeHybridForCausalLM"]; ar_type := "granitemoehybrid"; ar_tagalong := None; ar_vocab := None |}.

(** internlm2.json *)
Definition f_internlm2 : architecture :=
  {| ar_modules := [("default", {| me_info := MJson {| jd_type := "internlm2"; jd_names := ["InternLM2ForCausalLM"]; jd_arch := a_internlm2_default |}; me_prefix := None; me_subfolder := None |})];
     ar_names := ["InternLM2ForCausalLM"]; ar_type := "internlm2"; ar_tagalong := None; ar_vocab := None |}.

(** jais.json *)
Definition f_jais : architecture :=
  {| ar_modules := [("default", {| me_info := MJson {| jd_type := "jais"; jd_names := ["JAISLMHeadModel"]; jd_arch := a_jais_default |}; me_prefix := None; me_subfolder := None |})];
     ar_names := ["JAISLMHeadModel"]; ar_type := "jais"; ar_tagalong := None; ar_vocab := None |}.

(** lfm2.json *)
Definition f_lfm2 : architecture :=
  {| ar_modules := [("default", {| me_info := MJson {| jd_type := "lfm2"; jd_names := ["Lfm2ForCausalLM"]; jd_arch := a_lfm2_default |}; me_prefix := None; me_subfolder := None |})];
     ar_names := ["Lfm2ForCausalLM"]; ar_type := "lfm2"; ar_tagalong := None; ar_vocab := None |}.

(** llama-sequence-classification.json *)
Definition f_llama_sequence_classification : architecture :=
  {| ar_modules := [("default", {| me_info := MJson {| jd_type := "llama"; jd_names := ["LlamaForSequenceClassification"]; jd_arch := a_llama_sequence_classification_default |}; me_prefix := None; me_subfolder := None |})];
     ar_names := ["LlamaForSequenceClassification"]; ar_type := "llama"; ar_tagalong := None; ar_vocab := None |}.

(** llama.json *)
Definition f_llama : architecture :=
  {| ar_modules := [("default", {| me_info := MJson {| jd_type := "llama"; jd_names := ["LlamaForCausalLM"; "LLaMaForCausalLM"]; jd_arch := a_llama_default |}; me_prefix := None; me_subfolder := None |})];
     ar_names := ["LlamaForCausalLM"; "LLaMaForCausalLM"]; ar_type := "llama"; ar_tagalong := None; ar_vocab := None |}.

(** llama4.json *)
Definition f_llama4 : architecture :=
  {| ar_modules := [("text_decoder", {| me_info := MJson {| jd_type := "llama4_text"; jd_names := []; jd_arch := a_llama4_text_decoder |}; me_prefix := Some "language_model."; me_subfolder := None |});
       ("multi_modal_projector", {| me_info := MJson {| jd_type := ""; jd_names := []; jd_arch := a_llama4_multi_modal_projector |}; me_prefix := Some "multi_modal_projector."; me_subfolder := None |});
       ("vision_model", {| me_info := MJson {| jd_type := "llama4_vision_model"; jd_names := []; jd_arch := a_llama4_vision_model |}; me_prefix := Some "vision_model."; me_subfolder := None |})];
     ar_names := ["Llama4ForConditionalGeneration"]; ar_type := "llama4"; ar_tagalong := Some ["preprocessor_config.json"; "processor_config.json"]; ar_vocab := Some "text_config.vocab_size" |}.

(** mamba.json *)
Definition f_mamba : architecture :=
  {| ar_modules := [("default", {| me_info := MJson {| jd_type := "mamba"; jd_names := ["MambaForCausalLM"]; jd_arch := a_mamba_default |}; me_prefix := None; me_subfolder := None |})];
     ar_names := ["MambaForCausalLM"]; ar_type := "mamba"; ar_tagalong := None; ar_vocab := None |}.

(** mistral.json *)
Definition f_mistral : architecture :=
  {| ar_modules := [("default", {| me_info := MJson {| jd_type := "mistral"; jd_names := ["MistralForCausalLM"]; jd_arch := a_mistral_default |}; me_prefix := None; me_subfolder := None |})];
     ar_names := ["MistralForCausalLM"]; ar_type := "mistral"; ar_tagalong := None; ar_vocab := None |}.

(** mistral3.json *)
Definition f_mistral3 : architecture :=
  {| ar_modules := [("text_decoder", {| me_info := MJson {| jd_type := "mistral"; jd_names := []; jd_arch := a_mistral3_text_decoder |}; me_prefix := Some "language_model."; me_subfolder := None |});
       ("multi_modal_projector", {| me_info := MJson {| jd_type := ""; jd_names := []; jd_arch := a_mistral3_multi_modal_projector |}; me_prefix := Some "multi_modal_projector."; me_subfolder := None |});
       ("vision_tower", {| me_info := MJson {| jd_type := "pixtral"; jd_names := []; jd_arch := a_mistral3_vision_tower |}; me_prefix := Some "vision_tower."; me_subfolder := None |})];
     ar_names := ["Mistral3ForConditionalGeneration"]; ar_type := "mistral3"; ar_tagalong := Some ["preprocessor_config.json"; "processor_config.json"]; ar_vocab := Some "text_config.vocab_size" |}.

(** mixtral.json *)
Definition f_mixtral : architecture :=
  {| ar_modules := [("default", {| me_info := MJson {| jd_type := "mixtral"; jd_names := ["MixtralForCausalLM"]; jd_arch := a_mixtral_default |}; me_prefix := None; me_subfolder := None |})];
     ar_names := ["MixtralForCausalLM"]; ar_type := "mixtral"; ar_tagalong := None; ar_vocab := None |}.

(** olmo2.json *)
Definition f_olmo2 : architecture :=
  {| ar_modules := [("default", {| me_info := MJson {| jd_type := "olmo2"; jd_names := ["Olmo2ForCausalLM"]; jd_arch := a_olmo2_default |}; me_prefix := None; me_subfolder := None |})];
     ar_names := ["Olmo2ForCausalLM"]; ar_type := "olmo2"; ar_tagalong := None; ar_vocab := None |}.

(** phi-1.json *)
Definition f_phi_1 : architecture :=
  {| ar_modules := [("default", {| me_info := MJson {| jd_type := "mixformer-sequential"; jd_names := ["MixFormerSequentialForCausalLM"]; jd_arch := a_phi_1_default |}; me_prefix := None; me_subfolder := None |})];
     ar_names := ["MixFormerSequentialForCausalLM"]; ar_type := "mixformer-sequential"; ar_tagalong := None; ar_vocab := None |}.

(** phi2-old.json *)
Definition f_phi2_old : architecture :=
  {| ar_modules := [("default", {| me_info := MJson {| jd_type := "phi-msft"; jd_names := ["PhiForCausalLM"]; jd_arch := a_phi2_old_default |}; me_prefix := None; me_subfolder := None |})];
     ar_names := ["PhiForCausalLM"]; ar_type := "phi-msft"; ar_tagalong := None; ar_vocab := None |}.

(** phi2.json *)
Definition f_phi2 : architecture :=
  {| ar_modules := [("default", {| me_info := MJson {| jd_type := "phi"; jd_names := ["PhiForCausalLM"]; jd_arch := a_phi2_default |}; me_prefix := None; me_subfolder := None |})];
     ar_names := ["PhiForCausalLM"]; ar_type := "phi"; ar_tagalong := None; ar_vocab := None |}.

(** phi3-small.json *)
Definition f_phi3_small : architecture :=
  {| ar_modules := [("default", {| me_info := MJson {| jd_type := "phi3small"; jd_names := ["Phi3SmallForCausalLM"]; jd_arch := a_phi3_small_default |}; me_prefix := None; me_subfolder := None |})];
     ar_names := ["Phi3SmallForCausalLM"]; ar_type := "phi3small"; ar_tagalong := None; ar_vocab := None |}.

(** phi3.json *)
Definition f_phi3 : architecture :=
  {| ar_modules := [("default", {| me_info := MJson {| jd_type := "phi3"; jd_names := ["Phi3ForCausalLM"]; jd_arch := a_phi3_default |}; me_prefix := None; me_subfolder := None |})];
     ar_names := ["Phi3ForCausalLM"]; ar_type := "phi3"; ar_tagalong := None; ar_vocab := None |}.

(** qwen.json *)
Definition f_qwen : architecture :=
  {| ar_modules := [("default", {| me_info := MJson {| jd_type := "qwen"; jd_names := ["QWenLMHeadModel"]; jd_arch := a_qwen_default |}; me_prefix := None; me_subfolder := None |})];
     ar_names := ["QWenLMHeadModel"]; ar_type := "qwen"; ar_tagalong := None; ar_vocab := None |}.

(** qwen2.json *)
Definition f_qwen2 : architecture :=
  {| ar_modules := [("default", {| me_info := MJson {| jd_type := "qwen2"; jd_names := ["Qwen2ForCausalLM"]; jd_arch := a_qwen2_default |}; me_prefix := None; me_subfolder := None |})];
     ar_names := ["Qwen2ForCausalLM"]; ar_type := "qwen2"; ar_tagalong := None; ar_vocab := None |}.

(** qwen2_5_vl.json *)
Definition f_qwen2_5_vl : architecture :=
  {| ar_modules := [("text_decoder", {| me_info := MJson {| jd_type := "qwen2_5"; jd_names := ["Qwen2_5ForCausalLM"]; jd_arch := a_qwen2_5_vl_text_decoder |}; me_prefix := None; me_subfolder := None |});
       ("multi_modal_projector", {| me_info := MJson {| jd_type := ""; jd_names := []; jd_arch := a_qwen2_5_vl_multi_modal_projector |}; me_prefix := None; me_subfolder := None |});
       ("vision_tower", {| me_info := MJson {| jd_type := ""; jd_names := []; jd_arch := a_qwen2_5_vl_vision_tower |}; me_prefix := None; me_subfolder := None |})];
     ar_names := ["Qwen2_5_VLForConditionalGeneration"]; ar_type := "qwen2_5_vl"; ar_tagalong := Some ["preprocessor_config.json"; "vocab.json"]; ar_vocab := Some "vocab_size" |}.

(** qwen2_vl.json *)
Definition f_qwen2_vl : architecture :=
  {| ar_modules := [("text_decoder", {| me_info := MJson {| jd_type := "qwen2"; jd_names := ["Qwen2ForCausalLM"]; jd_arch := a_qwen2_vl_text_decoder |}; me_prefix := None; me_subfolder := None |});
       ("multi_modal_projector", {| me_info := MJson {| jd_type := ""; jd_names := []; jd_arch := a_qwen2_vl_multi_modal_projector |}; me_prefix := None; me_subfolder := None |});
       ("vision_tower", {| me_info := MJson {| jd_type := ""; jd_names := []; jd_arch := a_qwen2_vl_vision_tower |}; me_prefix := None; me_subfolder := None |})];
     ar_names := ["Qwen2VLForConditionalGeneration"]; ar_type := "qwen2_vl"; ar_tagalong := Some ["preprocessor_config.json"; "vocab.json"]; ar_vocab := Some "vocab_size" |}.

(** qwen3.json *)
Definition f_qwen3 : architecture :=
  {| ar_modules := [("default", {| me_info := MJson {| jd_type := "qwen3"; jd_names := ["Qwen3ForCausalLM"]; jd_arch := a_qwen3_default |}; me_prefix := None; me_subfolder := None |})];
     ar_names := ["Qwen3ForCausalLM"]; ar_type := "qwen3"; ar_tagalong := None; ar_vocab := None |}.

(** qwen3_moe.json *)
Definition f_qwen3_moe : architecture :=
  {| ar_modules := [("default", {| me_info := MJson {| jd_type := "qwen3_moe"; jd_names := ["Qwen3MoeForCausalLM"]; jd_arch := a_qwen3_moe_default |}; me_prefix := None; me_subfolder := None |})];
     ar_names := ["Qwen3MoeForCausalLM"]; ar_type := "qwen3_moe"; ar_tagalong := None; ar_vocab := None |}.

(** qwen3_vl.json *)
Definition f_qwen3_vl : architecture :=
  {| ar_modules := [("text_decoder", {| me_info := MJson {| jd_type := "qwen3_vl_moe_text"; jd_names := ["Qwen3ForCausalLM"]; jd_arch := a_qwen3_vl_text_decoder |}; me_prefix := None; me_subfolder := None |});
       ("multi_modal_projector", {| me_info := MJson {| jd_type := ""; jd_names := []; jd_arch := a_qwen3_vl_multi_modal_projector |}; me_prefix := None; me_subfolder := None |});
       ("vision_tower", {| me_info := MJson {| jd_type := ""; jd_names := []; jd_arch := a_qwen3_vl_vision_tower |}; me_prefix := None; me_subfolder := None |})];
     ar_names := ["Qwen3VLMoeForConditionalGeneration"]; ar_type := "qwen3_vl_moe"; ar_tagalong := Some ["preprocessor_config.json"; "vocab.json"]; ar_vocab := Some "vocab_size" |}.

(** qwen3_vl_dense.json *)
Definition f_qwen3_vl_dense : architecture :=
  {| ar_modules := [("text_decoder", {| me_info := MJson {| jd_type := "qwen3_vl_text"; jd_names := ["Qwen3ForCausalLM"]; jd_arch := a_qwen3_vl_dense_text_decoder |}; me_prefix := None; me_subfolder := None |});
       ("multi_modal_projector", {| me_info := MJson {| jd_type := ""; jd_names := []; jd_arch := a_qwen3_vl_dense_multi_modal_projector |}; me_prefix := None; me_subfolder := None |});
       ("vision_tower", {| me_info := MJson {| jd_type := ""; jd_names := []; jd_arch := a_qwen3_vl_dense_vision_tower |}; me_prefix := None; me_subfolder := None |})];
     ar_names := ["Qwen3VLForConditionalGeneration"]; ar_type := "qwen3_vl"; ar_tagalong := Some ["preprocessor_config.json"; "vocab.json"]; ar_vocab := Some "text_config.vocab_size" |}.

(** roberta-masked-lm.json *)
Definition f_roberta_masked_lm : architecture :=
  {| ar_modules := [("default", {| me_info := MJson {| jd_type := "roberta"; jd_names := ["RobertaForMaskedLM"]; jd_arch := a_roberta_masked_lm_default |}; me_prefix := None; me_subfolder := None |})];
     ar_names := ["RobertaForMaskedLM"]; ar_type := "roberta"; ar_tagalong := None; ar_vocab := None |}.

(** roberta-sequence-classification.json *)
Definition f_roberta_sequence_classification : architecture :=
  {| ar_modules := [("default", {| me_info := MJson {| jd_type := "roberta"; jd_names := ["RobertaForSequenceClassification"]; jd_arch := a_roberta_sequence_classification_default |}; me_prefix := None; me_subfolder := None |})];
     ar_names := ["RobertaForSequenceClassification"]; ar_type := "roberta"; ar_tagalong := None; ar_vocab := None |}.

(** roberta-token-classification.json *)
Definition f_roberta_token_classification : architecture :=
  {| ar_modules := [("default", {| me_info := MJson {| jd_type := "roberta"; jd_names := ["RobertaForTokenClassification"]; jd_arch := a_roberta_token_classification_default |}; me_prefix := None; me_subfolder := None |})];
     ar_names := ["RobertaForTokenClassification"]; ar_type := "roberta"; ar_tagalong := None; ar_vocab := None |}.

(** roberta.json *)
Definition f_roberta : architecture :=
  {| ar_modules := [("default", {| me_info := MJson {| jd_type := "roberta"; jd_names := ["RobertaModel"]; jd_arch := a_roberta_default |}; me_prefix := None; me_subfolder := None |})];
     ar_names := ["RobertaModel"]; ar_type := "roberta"; ar_tagalong := None; ar_vocab := None |}.

(** solar.json *)
Definition f_solar : architecture :=
  {| ar_modules := [("default", {| me_info := MJson {| jd_type := "solar"; jd_names := ["SolarForCausalLM"]; jd_arch := a_solar_default |}; me_prefix := None; me_subfolder := None |})];
     ar_names := ["SolarForCausalLM"]; ar_type := "solar"; ar_tagalong := None; ar_vocab := None |}.

(** stablelm.json *)
Definition f_stablelm : architecture :=
  {| ar_modules := [("default", {| me_info := MJson {| jd_type := "stablelm_epoch"; jd_names := ["StableLMEpochForCausalLM"]; jd_arch := a_stablelm_default |}; me_prefix := None; me_subfolder := None |})];
     ar_names := ["StableLMEpochForCausalLM"]; ar_type := "stablelm_epoch"; ar_tagalong := None; ar_vocab := None |}.

(** stablelm2.json *)
Definition f_stablelm2 : architecture :=
  {| ar_modules := [("default", {| me_info := MJson {| jd_type := "stablelm"; jd_names := ["StableLmForCausalLM"]; jd_arch := a_stablelm2_default |}; me_prefix := None; me_subfolder := None |})];
     ar_names := ["StableLmForCausalLM"]; ar_type := "stablelm"; ar_tagalong := None; ar_vocab := None |}.

(** starcoder2.json *)
Definition f_starcoder2 : architecture :=
  {| ar_modules := [("default", {| me_info := MJson {| jd_type := "starcoder2"; jd_names := ["Starcoder2ForCausalLM"]; jd_arch := a_starcoder2_default |}; me_prefix := None; me_subfolder := None |})];
     ar_names := ["Starcoder2ForCausalLM"]; ar_type := "starcoder2"; ar_tagalong := None; ar_vocab := None |}.

(** t5.json *)
Definition f_t5 : architecture :=
  {| ar_modules := [("decoder", {| me_info := MJson {| jd_type := ""; jd_names := []; jd_arch := a_t5_decoder |}; me_prefix := None; me_subfolder := None |});
       ("encoder", {| me_info := MJson {| jd_type := ""; jd_names := []; jd_arch := a_t5_encoder |}; me_prefix := None; me_subfolder := None |});
       ("shared", {| me_info := MJson {| jd_type := ""; jd_names := []; jd_arch := a_t5_shared |}; me_prefix := None; me_subfolder := None |})];
     ar_names := ["T5ForConditionalGeneration"]; ar_type := "t5"; ar_tagalong := None; ar_vocab := None |}.

(** whisper.json *)
Definition f_whisper : architecture :=
  {| ar_modules := [("decoder", {| me_info := MJson {| jd_type := ""; jd_names := []; jd_arch := a_whisper_decoder |}; me_prefix := Some "model.decoder"; me_subfolder := None |});
       ("encoder", {| me_info := MJson {| jd_type := ""; jd_names := []; jd_arch := a_whisper_encoder |}; me_prefix := Some "model.encoder."; me_subfolder := None |})];
     ar_names := ["WhisperForConditionalGeneration"]; ar_type := "whisper"; ar_tagalong := Some ["preprocessor_config.json"; "normalizer.json"]; ar_vocab := None |}.

Definition files : list (string * architecture) :=
  [("afmoe_partial", f_afmoe_partial);
   ("apertus", f_apertus);
   ("arcee", f_arcee);
   ("baichuan", f_baichuan);
   ("bert-masked-lm", f_bert_masked_lm);
   ("bert-sequence-classification", f_bert_sequence_classification);
   ("bert", f_bert);
   ("chatglm", f_chatglm);
   ("cohere", f_cohere);
   ("cohere2", f_cohere2);
   ("distilbert-masked-lm", f_distilbert_masked_lm);
   ("distilbert-sequence-classification", f_distilbert_sequence_classification);
   ("distilbert-token-classification", f_distilbert_token_classification);
   ("distilbert", f_distilbert);
   ("exaone", f_exaone);
   ("falcon", f_falcon);
   ("gemma", f_gemma);
   ("gemma2", f_gemma2);
   ("gemma3", f_gemma3);
   ("gemma3vl", f_gemma3vl);
   ("glm4", f_glm4);
   ("glm4moe", f_glm4moe);
   ("gpt-neox", f_gpt_neox);
   ("gpt2-sequence-classification", f_gpt2_sequence_classification);
   ("gpt2", f_gpt2);
   ("gptbigcode", f_gptbigcode);
   ("granite", f_granite);
   ("granite4moehybrid", f_granite4moehybrid);
   ("internlm2", f_internlm2);
   ("jais", f_jais);
   ("lfm2", f_lfm2);
   ("llama-sequence-classification", f_llama_sequence_classification);
   ("llama", f_llama);
   ("llama4", f_llama4);
   ("mamba", f_mamba);
   ("mistral", f_mistral);
   ("mistral3", f_mistral3);
   ("mixtral", f_mixtral);
   ("olmo2", f_olmo2);
   ("phi-1", f_phi_1);
   ("phi2-old", f_phi2_old);
   ("phi2", f_phi2);
   ("phi3-small", f_phi3_small);
   ("phi3", f_phi3);
   ("qwen", f_qwen);
   ("qwen2", f_qwen2);
   ("qwen2_5_vl", f_qwen2_5_vl);
   ("qwen2_vl", f_qwen2_vl);
   ("qwen3", f_qwen3);
   ("qwen3_moe", f_qwen3_moe);
   ("qwen3_vl", f_qwen3_vl);
   ("qwen3_vl_dense", f_qwen3_vl_dense);
   ("roberta-masked-lm", f_roberta_masked_lm);
   ("roberta-sequence-classification", f_roberta_sequence_classification);
   ("roberta-token-classification", f_roberta_token_classification);
   ("roberta", f_roberta);
   ("solar", f_solar);
   ("stablelm", f_stablelm);
   ("stablelm2", f_stablelm2);
   ("starcoder2", f_starcoder2);
   ("t5", f_t5);
   ("whisper", f_whisper)].
Definition table : list architecture := map snd files.
