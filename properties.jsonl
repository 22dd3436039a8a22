{"id": "C01", "title": "Serial execution computes the recursive value of every target", "statement": "Running Executor(targets) on task objects without cached values either yields, for every target, exactly the value obtained by evaluating that task's dependency tree recursively (execute applied to the values of its arguments), or raises the exception some needed task raised; deduplication, scheduling order and eviction of intermediates never change a yielded value.", "quantifier": "every finite set of task trees, every pure execute function, every priority/group labelling, every set iteration order", "why_tests_cant": "tests exercise a handful of fixed graphs; the claim is about all DAG shapes and all schedules the lexicographic topological sort can emit", "anchors": ["mergekit/graph.py:TaskUniverse.add_task", "mergekit/graph.py:build_schedule", "mergekit/graph.py:Executor._run"]}
{"id": "C02", "title": "Each needed task executes exactly once, after its dependencies", "statement": "In one Executor run every distinct (by equality) task reachable from the targets without passing through a cached task executes exactly once, nothing else executes, and a task executes only after all of its uncached dependencies.", "quantifier": "every task graph, target list, cached-value set and set iteration order", "why_tests_cant": "needs an argument over all graphs and all tie-breaking orders of the topological sort", "anchors": ["mergekit/graph.py:build_schedule", "mergekit/graph.py:Executor._run"]}
{"id": "C03", "title": "Eviction is safe and prompt", "statement": "During a run no task ever finds one of its argument values already evicted, and after each step the executor retains exactly those computed values that some later task in the schedule still needs (plus supplied cached values that are never used by the schedule).", "quantifier": "every schedule produced from every graph, every step of the run", "why_tests_cant": "a premature eviction only shows on particular interleavings of last uses; memory retention is not observable in unit tests", "anchors": ["mergekit/graph.py:build_schedule (last_use_index)", "mergekit/graph.py:Executor._run"]}
{"id": "C04", "title": "Supplied cached values are used, never recomputed, and every target is still reported", "statement": "When the caller supplies values for some tasks, those tasks and tasks needed only by them are not executed, dependants see the supplied values, and every target (cached or not) is yielded exactly once with its value.", "quantifier": "every graph, every assignment of cached values, every target list", "why_tests_cant": "depends on the combination of cached sets and targets; the test-suite never passes cached targets", "anchors": ["mergekit/graph.py:build_schedule", "mergekit/graph.py:Executor._run", "mergekit/graph.py:Executor.__init__"]}
{"id": "C05", "title": "Priority and group labels only reorder, and are honoured greedily", "statement": "At each point of the schedule the chosen task has the least (group label, -priority) among all tasks whose dependencies are satisfied, so a ready higher-priority task in the same or an earlier group is never overtaken; changing labels or priorities never changes which tasks run.", "quantifier": "every graph and labelling", "why_tests_cant": "greedy minimality is a statement about all positions of all schedules", "anchors": ["mergekit/graph.py:build_schedule", "mergekit/graph.py:Task.priority", "mergekit/graph.py:Task.group_label"]}
{"id": "C06", "title": "Multi-GPU partition is sound", "statement": "MultiGPUExecutor splits the serial schedule into leading, per-GPU, parallel and trailing tasks such that a main-thread-only task is never given to a device worker (construction fails instead), every dependency of a leading task is leading, every dependant of a trailing task is trailing, every parallel task is assigned to exactly one device together with every parallel task it is connected to, and the trailing set does not depend on the iteration order of Python sets.", "quantifier": "every task graph, labelling of tasks as main-thread-only/duplicate-per-GPU, number of devices >= 1, and every set iteration order", "why_tests_cant": "GPU code paths are not tested at all and the result depends on hash order", "anchors": ["mergekit/multigpu_executor.py:MultiGPUExecutor.__init__", "_find_trailing_tasks", "_find_leading_tasks", "_assign_islands_to_gpus"]}
{"id": "C07", "title": "Multi-GPU execution agrees with serial execution", "statement": "For every interleaving of device workers, the (task, value) pairs yielded by MultiGPUExecutor.run are the same as those yielded by the serial Executor on the same targets.", "quantifier": "every graph, every assignment of islands, every interleaving of workers, the completion queue and the collector thread", "why_tests_cant": "thread interleavings (in particular the collector observing done_event before draining the queue) cannot be enumerated by tests", "anchors": ["mergekit/multigpu_executor.py:MultiGPUExecutor.run", "_device_worker"]}
{"id": "C08", "title": "Gradient parameters interpolate their control points", "statement": "A list of numbers given for a parameter evaluates at depth t to the piecewise-linear interpolation of its control points: the first value at t=0, the last at t=1, the i-th value at t=i/(n-1), always between the two neighbouring control points, and monotone/continuous where the control points are.", "quantifier": "every non-empty list of numbers, every t in [0,1]", "why_tests_cant": "real-valued t and arbitrary list lengths", "anchors": ["mergekit/config.py:evaluate_setting"]}
{"id": "C09", "title": "Conditional parameters select the first matching filter", "statement": "A list of conditional values evaluates to the value of the first entry whose filter is absent, '*', or a substring of the tensor name, and to 'unset' (falling through to the next configuration level) iff no entry matches; filters never match when no tensor name is known.", "quantifier": "every list of conditional entries, every tensor name, every t", "why_tests_cant": "arbitrary strings and nesting", "anchors": ["mergekit/config.py:evaluate_setting", "mergekit/config.py:ConditionalParameter"]}
{"id": "C10", "title": "Parameter lookup precedence", "statement": "ConfigReader.parameter returns the value set at the most specific level that yields one: per-model slice source, then output slice, then module, then global, then the default; it raises exactly when the parameter is required and no level yields a value; levels that do not apply (no slice, no module, no model) are skipped; for a source that occurs several times the first occurrence wins.", "quantifier": "every configuration, model, tensor name and depth", "why_tests_cant": "combinatorial space of five optional levels each holding arbitrary settings", "anchors": ["mergekit/config.py:ConfigReader.parameter"]}
{"id": "C11", "title": "Output layers are numbered contiguously and take the right source layers", "statement": "Planning a module writes output layers 0..L-1 with no gap or duplicate where L is the total length of its slices, and output layer k, falling at offset j in slice s, reads layer (start_m + j) of every source model m of s, at depth t=j/(len-1) (1 for a one-layer slice).", "quantifier": "every list of slices with any lengths and any sources", "why_tests_cant": "arbitrary frankenmerge layouts", "anchors": ["mergekit/plan.py:MergePlanner.plan_module", "plan_slice", "plan_layer"]}
{"id": "C12", "title": "The written config agrees with the planned layers", "statement": "For a slices configuration the number of layers stored in the output config equals the number of layers actually planned, for every accepted configuration.", "quantifier": "every slice configuration accepted by the planner", "why_tests_cant": "two independent computations in two files must agree on all inputs", "anchors": ["mergekit/merge.py:_model_out_config", "mergekit/plan.py:MergePlanner.plan_slice"]}
{"id": "C13", "title": "Every output weight is planned once, from all its sources", "statement": "Planning succeeds for every architecture definition and configuration it accepts, and produces for each output weight exactly one merge task that reads the weight from every source model of its slice; an optional weight is skipped only if no source model has it under its name, an alias or a tied name.", "quantifier": "every architecture template, every slice layout, every set of tensors present in the inputs", "why_tests_cant": "depends on architecture JSON contents, aliases and per-slice source counts", "anchors": ["mergekit/plan.py:MergePlanner.plan_tensor", "plan_module", "mergekit/architecture/base.py:WeightInfo"]}
{"id": "C14", "title": "normalize_config preserves meaning, adds the base model once, and is idempotent", "statement": "After normalisation every module is described by slices only, the sources are the given models in order over their full depth followed by the base model iff one is set and not already listed, and normalising again changes nothing.", "quantifier": "every configuration with models, slices or modules and any architecture", "why_tests_cant": "quantifies over all three configuration styles and module sets", "anchors": ["mergekit/plan.py:MergePlanner.normalize_config"]}
{"id": "C15", "title": "Saved tensors are read back exactly", "statement": "After saving any sequence of tensors and finalizing into an empty directory, opening the directory with the loader finds exactly the saved names, and each name yields the last tensor saved under it.", "quantifier": "every sequence of (name, tensor) saves, every shard size limit, sync or async writing", "why_tests_cant": "unbounded sequences, shard boundaries at arbitrary positions", "anchors": ["mergekit/io/tensor_writer.py:TensorWriter", "mergekit/io/lazy_tensor_loader.py:ShardedTensorIndex.from_disk", "LazyTensorLoader.get_tensor"]}
{"id": "C16", "title": "Shard size limit and total size", "statement": "Every shard written holds at most max_shard_size bytes unless it holds a single tensor; shards are filled greedily in save order; the recorded total_size is the sum of the sizes of the saved tensors when names are distinct.", "quantifier": "every sequence of saves and every positive limit", "why_tests_cant": "arbitrary sizes around the boundary", "anchors": ["mergekit/io/tensor_writer.py:save_tensor", "_flush_current_shard", "finalize"]}
{"id": "C17", "title": "A crash never leaves a silently wrong model", "statement": "If the process dies at any point while saving/finalizing into an initially empty directory, then the directory afterwards either is not recognised as a model by the loader or loads with exactly the complete set of saved tensors.", "quantifier": "every prefix of the file-system operations of every save sequence (sync mode), every shard layout", "why_tests_cant": "every crash point of every run", "anchors": ["mergekit/io/tensor_writer.py:finalize", "mergekit/io/lazy_tensor_loader.py:ShardedTensorIndex.from_disk"]}
{"id": "C18", "title": "Writing into a reused output directory", "statement": "After a completed write, loading the directory yields the newly written tensors even if the directory already held an older model.", "quantifier": "every initial directory content and every save sequence", "why_tests_cant": "depends on what was left from previous runs", "anchors": ["mergekit/io/tensor_writer.py:finalize", "mergekit/io/lazy_tensor_loader.py:ShardedTensorIndex.from_disk"]}
{"id": "C19", "title": "Asynchronous shard writes do not change the outcome", "statement": "With async writing, whatever order the background writers run in and wherever they interleave with further saves, the directory after finalize is the same as with synchronous writing, or finalize raises.", "quantifier": "every interleaving of shard-writing workers with the main thread", "why_tests_cant": "thread schedules", "anchors": ["mergekit/io/tensor_writer.py:_flush_current_shard", "_write_shard_task", "finalize"]}
{"id": "C20", "title": "Tensor reads do not depend on read history", "statement": "LazyTensorLoader.get_tensor returns, for any previous sequence of reads and flushes, the same tensor as a fresh loader: the one stored under the requested key in the shard the index names (or the first alias present when the key is absent), None/KeyError iff neither key nor alias is indexed.", "quantifier": "every checkpoint consistent with its index, every history of get_tensor/flush calls", "why_tests_cant": "the current-shard cache makes results potentially history dependent", "anchors": ["mergekit/io/lazy_tensor_loader.py:LazyTensorLoader.get_tensor", "flush"]}
{"id": "C21", "title": "Lazy pickle archive reads return the requested byte range", "statement": "TorchArchiveReader.open_file positions the stream so that a deferred tensor load reads exactly bytes [offset, offset+n) of the requested archive member, for any previous sequence of opens and reads, and reopens only when it must go backwards or change member.", "quantifier": "every archive, every history of (member, offset, length) reads", "why_tests_cant": "stateful shared stream position; histories are unbounded", "anchors": ["mergekit/io/lazy_unpickle.py:TorchArchiveReader.open_file", "DeferredLoad.execute"]}
{"id": "C22", "title": "Lazily unpickled tensors equal eagerly loaded ones", "statement": "A deferred tensor resolves to the elements the pickle stream describes: storage offset, shape and dtype are honoured for every storage layout, including zero-dimensional tensors.", "quantifier": "every storage, offset and shape", "why_tests_cant": "shape-dependent arithmetic", "anchors": ["mergekit/io/lazy_unpickle.py:DeferredLoad.rebuild", "DeferredLoad.execute"]}
{"id": "C23", "title": "Model reference strings round-trip", "statement": "Parsing the string form of a model reference gives back the same reference, and printing a parsed string gives back the same string, so references stored in YAML, caches and model cards denote the same model.", "quantifier": "every model reference and every string", "why_tests_cant": "all strings including separators in paths and empty revisions", "anchors": ["mergekit/common.py:ModelReference.validate_string", "ModelReference.__str__", "ModelPath.validate_string", "ModelPath.__str__"]}
{"id": "C24", "title": "Size strings", "statement": "parse_kmb maps '<digits>' to the number and '<digits><k|m|b>' (any case) to the number times 10^3/10^6/10^9 and rejects everything else with a ValueError.", "quantifier": "every string", "why_tests_cant": "all strings", "anchors": ["mergekit/common.py:parse_kmb"]}
{"id": "C25", "title": "Magnitude sparsification keeps exactly the largest entries", "statement": "Sparsifying with density d<1 keeps exactly floor(d*n) entries (unscaled mode), every kept entry has magnitude at least that of every dropped entry, kept entries keep their value and dropped ones are zero; d>=1 is the identity.", "quantifier": "every tensor and every density", "why_tests_cant": "all tensors, ties, and densities", "anchors": ["mergekit/sparsify.py:magnitude", "mergekit/sparsify.py:sparsify"]}
{"id": "C26", "title": "Outlier-aware sparsification keeps the requested share", "statement": "magnitude_outliers keeps n - n_top - n_bot entries: it drops the gamma share of largest and the remaining smallest magnitudes, so the number of kept entries is as requested for every density and gamma.", "quantifier": "every tensor length, density and gamma", "why_tests_cant": "boundary arithmetic, negative-slice semantics at zero", "anchors": ["mergekit/sparsify.py:magnitude_outliers"]}
{"id": "C27", "title": "Norm rescaling preserves the chosen norm", "statement": "With rescale_norm l1/linf, the sparsified tensor is scaled so that its L1 (resp. Linf) norm equals the original one whenever the sparsified norm is above the tolerance, and is left unscaled otherwise; signs and zeros are preserved.", "quantifier": "every tensor and mask", "why_tests_cant": "real-valued tensors", "anchors": ["mergekit/sparsify.py:rescaled_masked_tensor"]}
{"id": "C28", "title": "DELLA keep-probabilities are valid and average to the density", "statement": "For every row the keep probabilities lie in [density-epsilon, density+epsilon], are non-decreasing in magnitude rank, and average exactly the density, so the expected number of kept entries is density*n.", "quantifier": "every row length and every density/epsilon accepted", "why_tests_cant": "all row lengths", "anchors": ["mergekit/sparsify.py:della_magprune"]}
{"id": "C29", "title": "Linear merge is the weighted average", "statement": "A normalized linear merge returns sum(w_i x_i)/sum(w_i): it is unchanged by rescaling all weights, reproduces a common value when all inputs agree, stays within the elementwise range of the inputs for non-negative weights, and does not depend on the order of the models.", "quantifier": "any number of models, any tensors, weights with non-zero sum", "why_tests_cant": "all weights and tensors", "anchors": ["mergekit/merge_methods/linear.py:LinearMergeTask.execute"]}
{"id": "C30", "title": "Task-arithmetic merges do not depend on model order and fix the base", "statement": "Task arithmetic and TIES produce base + combination of task vectors: if every model equals the base the result is the base; the result does not depend on the order in which models are listed; with one model, weight 1, density 1 and lambda 1 the result is that model.", "quantifier": "any number of models and tensors", "why_tests_cant": "all permutations and tensors", "anchors": ["mergekit/merge_methods/generalized_task_arithmetic.py:GTATask.execute", "get_mask", "get_task_vectors"]}
{"id": "C31", "title": "TIES sign consensus", "statement": "In consensus modes every element of the merged delta is built only from contributions whose sign agrees with the elected sign, so the merged delta never has a sign opposite to the elected one, and elements on which all models agree are never masked out.", "quantifier": "any number of models, both consensus methods", "why_tests_cant": "per-element sign patterns are exponential in the number of models", "anchors": ["mergekit/merge_methods/generalized_task_arithmetic.py:get_mask"]}
{"id": "C32", "title": "SLERP endpoints, symmetry and interpolation", "statement": "slerp(0,a,b)=a, slerp(1,a,b)=b, slerp(t,a,b)=slerp(1-t,b,a), for unit vectors the result is a unit vector moving at constant angular speed, and nearly colinear inputs fall back to linear interpolation.", "quantifier": "all vectors and all t in [0,1], in exact arithmetic", "why_tests_cant": "real analysis over all vectors", "anchors": ["mergekit/merge_methods/slerp.py:slerp"]}
{"id": "C33", "title": "NearSwap and model-stock bounds", "statement": "NearSwap never moves an element of the base by more than t; ModelStock returns a point on the line from base to average, equal to the base when task vectors are orthogonal and to the average when they coincide.", "quantifier": "all tensors, all t >= 0, any number of models", "why_tests_cant": "real-valued inputs", "anchors": ["mergekit/merge_methods/nearswap.py:nearswap", "mergekit/merge_methods/model_stock.py:ModelStockMergeTask.execute"]}
{"id": "C34", "title": "Union tokenizer gives every token of every model exactly one id", "statement": "The union vocabulary contains every token of every model, assigns ids 0..n-1 without gaps or clashes, keeps the base model's relative order, and each model's permutation maps a token's output id back to that model's own id for it (or -1 when it lacks the token).", "quantifier": "every set of vocabularies, including added tokens and clashes", "why_tests_cant": "arbitrary overlapping vocabularies", "anchors": ["mergekit/tokenizer/build.py:build_union_tokenizer", "build_tokenizer"]}
{"id": "C35", "title": "Embedding permutation places each token's vector at its new id", "statement": "PermutedEmbeddings returns, for each model, a matrix with one row per output token in which a token the model knows carries that model's own vector, an unknown token carries the configured/default source, and padding rows are zero.", "quantifier": "every vocabulary, permutation, token configuration and padding", "why_tests_cant": "index arithmetic over arbitrary vocabularies", "anchors": ["mergekit/tokenizer/embed.py:PermutedEmbeddings.execute", "assign_embedding_sources"]}
{"id": "C36", "title": "Vocabulary padding agrees between weights and config", "statement": "With pad_to_multiple_of=p the number of embedding rows written and the vocab_size stored in the config are the same number: the least multiple of p that is >= the vocabulary size.", "quantifier": "every vocabulary size and every p >= 1", "why_tests_cant": "two independent formulas must agree for all sizes", "anchors": ["mergekit/tokenizer/embed.py:PermutedEmbeddings.execute", "mergekit/merge.py:_update_config_vocab"]}
{"id": "C37", "title": "Architecture weight names are unambiguous", "statement": "Instantiating an architecture's layer templates for different layer indices never produces the same tensor name twice, so no two layers of the output overwrite each other, and substituting then adding a module prefix commutes with renaming.", "quantifier": "every template containing the layer index, every pair of layer indices, every prefix", "why_tests_cant": "all natural-number indices", "anchors": ["mergekit/architecture/json_definitions.py:_template_substitution", "mergekit/architecture/base.py:_prefix_weight"]}
{"id": "C38", "title": "Multi-merge dependency resolution", "statement": "mergekit-multi runs every named merge exactly once after the merges it depends on, and rejects a configuration with ValueError iff the requested merges contain a circular dependency.", "quantifier": "every set of named merge documents and every dependency graph", "why_tests_cant": "all dependency graphs", "anchors": ["mergekit/scripts/multimerge.py:make_tasks", "load_config"]}
{"id": "C39", "title": "Multi-merge only rewrites model references", "statement": "Substituting merge names by their output paths changes exactly the model references that name an intermediate merge and nothing else in the configuration.", "quantifier": "every configuration and every set of merge names", "why_tests_cant": "name collisions with ordinary strings", "anchors": ["mergekit/scripts/multimerge.py:patched_config"]}
{"id": "C40", "title": "Lazy multi-merge never skips an incomplete merge", "statement": "When lazy mode skips a merge because its output exists, that output is complete, for every point at which a previous run may have died.", "quantifier": "every crash point of a previous run", "why_tests_cant": "crash points", "anchors": ["mergekit/scripts/multimerge.py:MergeModelTask.execute", "mergekit/merge.py:run_merge"]}
{"id": "C41", "title": "MoE assembly places every expert's weights", "statement": "The MoE writer outputs for each layer, each expert index and each MLP parameter that expert model's tensor (scaled as configured), takes everything else from the base model, and writes one router row block per layer.", "quantifier": "any number of experts, layers and shared experts", "why_tests_cant": "arbitrary expert counts and source model overlap", "anchors": ["mergekit/moe/mixtral.py:MixtralMoE.write_model", "mergekit/moe/qwen.py", "mergekit/moe/deepseek.py", "mergekit/moe/common.py"]}
{"id": "C42", "title": "Evolved layer slices cover the model exactly", "statement": "For every genotype the generated configuration uses each layer range once: slices are consecutive, non-overlapping and cover 0..num_layers; densities lie in [0,1] and weights are non-negative unless negative weights were allowed.", "quantifier": "every genome definition and every genotype tensor", "why_tests_cant": "arbitrary real genotypes", "anchors": ["mergekit/evo/genome.py:ModelGenome.genotype_merge_config", "_discrete_config_slices"]}
{"id": "C43", "title": "Buffered evolutionary evaluation answers every request once, correctly", "statement": "Every submitted genotype's future receives exactly the evaluation result of that genotype, at most num_gpus merges are held and at most num_gpus evaluations run at a time, and an invalid genotype does not affect other requests.", "quantifier": "every interleaving of submissions, merge completions and evaluation completions", "why_tests_cant": "asynchronous schedules", "anchors": ["mergekit/evo/strategy.py:BufferedRayEvaluationStrategyActor.process_queue"]}
{"id": "C44", "title": "Raw-PyTorch merge honours explicit parameters", "statement": "construct_param_dicts gives each model the value set for it, else the global value, else the default; an explicitly set value is never replaced.", "quantifier": "every parameter setting, including 0 and false", "why_tests_cant": "falsy values and absent settings", "anchors": ["mergekit/scripts/merge_raw_pytorch.py:construct_param_dicts"]}
{"id": "C45", "title": "Filling missing parameters keeps the merged weights", "statement": "The filled model has exactly the base model's tensor names; each tensor present in the merged submodel (under the detected prefix) takes the submodel's value, every other keeps the base's value.", "quantifier": "every pair of parameter-name lists", "why_tests_cant": "prefix detection over arbitrary name lists", "anchors": ["mergekit/scripts/fill_missing_params.py:copy_and_fill_missing_params", "find_prefix", "find_common_ordered_names"]}
{"id": "C46", "title": "Extracted LoRA factors multiply to the truncated delta", "statement": "For a rank-r extraction the product B*A is the rank-r truncation of the task vector, whatever distribute_scale is, and the per-module rank recorded in the adapter config is the rank actually stored.", "quantifier": "every decomposition and rank limit", "why_tests_cant": "linear algebra over all matrices", "anchors": ["mergekit/scripts/extract_lora.py:TaskVectorDecompositionTask.execute", "make_config_dict"]}
{"id": "C47", "title": "Token surgery maps known tokens and honours its matching options", "statement": "tokensurgeon's new embedding has, for every donor token also known to the original tokenizer, the original model's row at the donor's id; prefix/byte matching is applied to the matrix the option names; every other row is approximated or zeroed.", "quantifier": "every pair of vocabularies and every option combination", "why_tests_cant": "vocabularies are arbitrary maps", "anchors": ["mergekit/scripts/tokensurgeon.py:build_embedding_matrix", "mergekit/scripts/tokensurgeon.py:main", "mergekit/tokensurgeon/subword.py"]}
{"id": "C48", "title": "Finalizing a writer a second time", "statement": "After a completed finalize of a writer that saved something, calling finalize again (for instance explicitly and then by leaving the with-block) raises FileNotFoundError instead of damaging the directory: no operation of the second call succeeds.", "quantifier": "every save sequence, shard layout and initial directory", "why_tests_cant": "needs every layout; the second call is never exercised", "anchors": ["mergekit/io/tensor_writer.py:finalize", "mergekit/io/tensor_writer.py:__exit__"]}
{"id": "C49", "title": "mergekit-pytorch plans each tensor once", "statement": "plan_flat_merge plans every tensor name found in a listed model exactly once (with tensor_intersection, those every input holds; with neither option it raises if an input lacks one), each output gathers every listed model and the base model once, and every planned load finds its tensor.", "quantifier": "every configuration, set of checkpoints, combination of options and set iteration order", "why_tests_cant": "needs every combination of tensor sets and options; the script has no test", "anchors": ["mergekit/scripts/merge_raw_pytorch.py:plan_flat_merge", "mergekit/scripts/merge_raw_pytorch.py:SimpleLoadTensor"]}
{"id": "C50", "title": "LoRA extraction plans every module once and lists the fully saved ones", "statement": "plan_extraction plans each module of the model at most once: modules the user lists, embeddings (unless embed_lora or excluded) and unsupported modules (unless skipped) are saved in full and are named in modules_to_save; every other included, supported module is decomposed, transposed exactly when it is an embedding; excluded modules are left out.", "quantifier": "every module list, every option combination and regex outcome", "why_tests_cant": "needs every order of modules; the plan mutates the list it consults", "anchors": ["mergekit/scripts/extract_lora.py:plan_extraction"]}
{"id": "C51", "title": "Subword approximation combines the rows of the token's subwords", "statement": "With method subword, an unknown token's row is, for each subword method, the mean, the sum, the position-weighted mean, or the first/last of the original rows of its subwords: a token that is a single original token gets exactly that row, all methods but the sum stay coordinatewise between the rows they combine, and the weighting favours the last subword for the input embedding as documented.", "quantifier": "every embedding matrix, subword list and method", "why_tests_cant": "real arithmetic over all matrices; the weight order is only visible in the numbers", "anchors": ["mergekit/tokensurgeon/subword.py:subword_approximate"]}
{"id": "C52", "title": "Interpolated rows are averages of the nearest shared tokens", "statement": "With method common interpolation and distance-proportional weights, the new row is a combination of the original rows of the k shared tokens nearest to the target, with non-negative weights adding up to one that do not decrease with closeness.", "quantifier": "every set of shared tokens, target, k and metric", "why_tests_cant": "real arithmetic over all matrices", "anchors": ["mergekit/tokensurgeon/common_interpolation.py:common_interp_approximate", "mergekit/tokensurgeon/common_interpolation.py:approximate_from_landmarks"]}
{"id": "C53", "title": "Orthogonal matching pursuit returns least-squares coefficients on distinct points", "statement": "batch_omp chooses k different candidate points, each having the largest inner product with what the earlier ones leave over; its coefficients are the least-squares solution on the chosen points, so the residual is orthogonal to them, more points never make it larger, and a target in their span is reproduced (and carried to the original space by any linear map relating the two).", "quantifier": "every set of points, target, k and reorthogonalisation interval, provided the chosen points are independent by more than eps", "why_tests_cant": "an invariant of the incremental QR factorisation over all inputs", "anchors": ["mergekit/tokensurgeon/omp.py:batch_omp"]}
{"id": "C54", "title": "Landmark PCA carries points over to the other space", "statement": "landmark_pca_approximate maps a target in space a to space b by the rigid motion that best carries the shared points of a to those of b: if b's points are a rotated, shifted copy of a's, a target is rotated and shifted likewise.", "quantifier": "every point set and target", "why_tests_cant": "linear algebra over all matrices; the direction of the rotation does not show when it is trivial", "anchors": ["mergekit/tokensurgeon/pca.py:landmark_pca_approximate"]}
{"id": "C55", "title": "Methods defined by decorator receive aligned lists", "statement": "A merge method written as a decorated function is called with the base model's tensor as base_tensor and the other models' tensors in `tensors`, each once, and with every per-model parameter list in the same order as the tensors; without a base tensor the argument is None or the call is refused. As documented, the lists follow the order of the input models, with the base model first if the function has no base_tensor argument.", "quantifier": "every set of models, parameters and iteration order of the set of models", "why_tests_cant": "the order is that of a Python set, different from run to run", "anchors": ["mergekit/merge_methods/easy_define.py:merge_method"]}
{"id": "C56", "title": "RAM averages only the models that change a parameter", "statement": "The RAM merge adds to each base parameter the mean of the changes larger than epsilon made there and leaves the others alone, independently of the order of models; copies of one model give that model up to epsilon. RAM+ treats shared changes alike and multiplies a change made by one model by a factor between 1 and 1 + r*alpha that grows with the share of shared changes.", "quantifier": "every number of models, tensor and parameter value", "why_tests_cant": "real arithmetic over all tensors", "anchors": ["mergekit/merge_methods/ram.py:ram_merge", "mergekit/merge_methods/ram.py:ramplus_tl_merge"]}
{"id": "C57", "title": "SCE merges the selected positions and keeps the rest", "statement": "With select_topk below one SCE changes exactly the chosen number of positions, those of largest variance among the models, and keeps the base elsewhere; with one it merges all. A merged value lies within the range of the changes that follow the elected sign, the order of the models does not matter, copies of one model give that model, and the result has the base's shape.", "quantifier": "every number of models, tensor, select_topk, and tie-breaking of topk", "why_tests_cant": "real arithmetic over all tensors; ties in topk", "anchors": ["mergekit/merge_methods/sce.py:sce_merge", "mergekit/merge_methods/sce.py:sce_weight", "mergekit/merge_methods/sce.py:sce_mask"]}
{"id": "C58", "title": "Arcee fusion takes the most changed parameters", "statement": "Each value of the fused tensor is the base model's or the other model's, the other's exactly where an importance score reaches one threshold common to the tensor; when the quartiles of the scores differ at most half of the values are taken, and where the other model differs from the base in a few positions those are taken and nothing else; when the models differ something is taken.", "quantifier": "every pair of tensors, every order of equal scores", "why_tests_cant": "real arithmetic (softmax, logarithms, quantiles) over all tensors", "anchors": ["mergekit/merge_methods/arcee_fusion.py:DynamicThresholdFusion", "mergekit/merge_methods/arcee_fusion.py:ArceeFusionMergeTask"]}
{"id": "C59", "title": "NuSLERP interpolates like SLERP", "statement": "NuSLERP reproduces its endpoints, is symmetric under exchanging the models, moves at constant angular speed on the unit sphere, agrees with the slerp method, works on rows with nuslerp_row_wise and on columns otherwise, depends only on the ratio of the weights, and interpolates differences when a base model is given.", "quantifier": "every pair of tensors, weights and option", "why_tests_cant": "real arithmetic over all tensors; the two matrix directions only differ on non-square or asymmetric data", "anchors": ["mergekit/merge_methods/nuslerp.py:nuslerp", "mergekit/merge_methods/nuslerp.py:NuSlerpTask"]}
{"id": "C60", "title": "Multi-SLERP interpolates on the sphere", "statement": "Multi-SLERP gives the weighted barycentre on the sphere of the normalised tensors (around the base if given), scaled to the weighted mean of the norms, independently of the order of the models; copies of one model give that model and two models give SLERP.", "quantifier": "every number of tensors, weights and base", "why_tests_cant": "trigonometric identities over all tensors; the cancellation of the tangent term shows in no single number", "anchors": ["mergekit/merge_methods/multislerp.py:multislerp"]}
{"id": "C61", "title": "The Karcher mean is what gradient descent on the sphere reaches", "statement": "The karcher merge returns a tensor whose norm is the mean of the norms and whose direction is reached by at most max_iter exact exponential-map steps along the mean logarithm, ending early only when that is shorter than tol; copies of one tensor give it, two models give the direction of the sum of their unit vectors, the order of models does not matter and embeddings of different sizes are cut to a common size.", "quantifier": "every number of tensors, max_iter and tol", "why_tests_cant": "an invariant of a trigonometric iteration over all tensors", "anchors": ["mergekit/merge_methods/karcher.py:karcher_merge_tensors", "mergekit/merge_methods/karcher.py:KarcherTask"]}
{"id": "C62", "title": "Random pruning is unbiased after rescaling", "statement": "DARE's random pruning keeps density times each entry on average, and its rescaling restores the mean of every entry.", "quantifier": "expectation over all draws, every tensor and density", "why_tests_cant": "a statement about a probability distribution", "anchors": ["mergekit/sparsify.py:bernoulli", "mergekit/sparsify.py:rescaled_masked_tensor"]}
{"id": "C63", "title": "A whole run writes exactly the merge described by the configuration", "statement": "A merge run finishes if and only if every planned tensor (and the tokenizer, if one is built) can be computed; then the output directory is a loadable model holding exactly one tensor per planned weight, each being the merge method applied to the tensors that the slices of the configuration name in the source models, in the requested dtype; otherwise the directory does not load unless the output was already complete.", "quantifier": "every configuration, set of input models, merge method, task schedule, shard size and write interleaving", "why_tests_cant": "the composition of planner, scheduler, loader and writer over all schedules and inputs", "anchors": ["mergekit/merge.py:run_merge", "mergekit/plan.py:plan_to_disk", "mergekit/io/tasks.py:LoadTensor", "mergekit/io/tasks.py:GatherTensors", "mergekit/io/tasks.py:SaveTensor", "mergekit/io/tasks.py:FinalizeModel"]}
{"id": "C64", "title": "Merging in memory gives what merging to disk writes", "statement": "For every planned weight the tensor reported by the in-memory run equals the tensor that the run to disk saves, and one run fails only if the other does.", "quantifier": "every configuration, set of input models, merge method and schedule of both runs", "why_tests_cant": "relates two executions over all schedules and inputs", "anchors": ["mergekit/plan.py:plan_in_memory", "mergekit/io/tasks.py:ReturnTensor", "mergekit/io/tasks.py:SaveTensor"]}
{"id": "C65", "title": "Inferred architectures cover exactly the tensors found", "statement": "When no definition is known for a model, the architecture inferred from the tensor names denotes, for every configuration, exactly the weights outside layers and, for every stack of layers, every name of any layer in every layer up to the highest one found, each once and independently of set order; a weight is required exactly when every model has (or can convert to) it in all layers and it is not tied, and it is marked as an embedding exactly when it is one or is tied.", "quantifier": "every set of models, tensor names, ignore patterns, tied patterns and order of set iteration", "why_tests_cant": "quantifies over all naming schemes and set iteration orders", "anchors": ["mergekit/architecture/auto.py:infer_architecture_info", "mergekit/architecture/auto.py:_target_present_in_all_models", "mergekit/architecture/auto.py:_template_present_in_all_models"]}
{"id": "C66", "title": "Checkpoint conversion keeps experts in order and its promises", "statement": "Converting tensors of an older layout hands numbered tensors (experts) to the combining transform in numeric order whatever the order of the checkpoint; whenever the names say that a weight can be converted, loading it succeeds; with renamings only, the tensor returned is one whose name is renamed to the wanted one and there is one whenever such a name exists.", "quantifier": "every registry of transforms, checkpoint, target name and order of set iteration", "why_tests_cant": "quantifies over all transforms, names and orders of the checkpoint", "anchors": ["mergekit/architecture/conversion.py:convert_checkpoint_tensors", "mergekit/architecture/conversion.py:can_convert_checkpoint_keys", "mergekit/architecture/conversion.py:_natural_sort_key", "mergekit/architecture/conversion.py:_iter_transform_matches"]}
{"id": "C67", "title": "The files that accompany the weights are the ones asked for", "statement": "After a run the output directory holds, for every name, the tagalong file of the donor model, else the tokenizer file, else the card, else the configuration, else what was there before; the automatic chat template is the one most models use (after trimming), independently of the order of the models unless there is a tie; a name or text short enough to be a file name selects the shipped template of that name, else the text itself if it can be a template; the run raises exactly when a built tokenizer cannot be given its template or saved, or the donor cannot be found.", "quantifier": "every set of models, tokenizers, chat-template setting, directory content and option", "why_tests_cant": "quantifies over all directory contents and tokenizers", "anchors": ["mergekit/merge.py:run_merge", "mergekit/merge.py:_set_chat_template", "mergekit/merge.py:_copy_tokenizer", "mergekit/merge.py:_copy_tagalong_files", "mergekit/common.py:ModelReference.local_path"]}
{"id": "C68", "title": "The cache of merged adapters returns the merge asked for", "statement": "The first call that needs a directory decides what it holds for ever; if no attempt failed and calls that share a directory want the same files, every call gets the merge of its own model and adapter in its own dtype; names that differ in at most four consecutive characters never share a directory.", "quantifier": "every sequence of calls, failure pattern and pair of names", "why_tests_cant": "quantifies over call histories, failures and checksum collisions", "anchors": ["mergekit/common.py:ModelReference.merged", "mergekit/common.py:ModelPath._unique_id"]}
{"id": "C69", "title": "The legacy commands write the configuration their arguments describe", "statement": "mergekit-legacy writes a configuration with the named models in order and the base model last if it is not among them, in which a single density or weight is that of every model and several are those of the models in order, and accepts exactly the command lines whose references parse, that name a model, give no more values than models and (for slerp) exactly one weight; the loop of mergekit-layershuffle takes every layer once, in order, from the model drawn for it.", "quantifier": "every command line, every outcome of the draws", "why_tests_cant": "quantifies over all argument lists and draws", "anchors": ["mergekit/scripts/legacy.py:main", "mergekit/scripts/layershuffle.py:main"]}
{"id": "C70", "title": "MoE configurations, output architecture and router vectors", "statement": "A MoE configuration is accepted exactly if experts_per_token is between one and the number of experts and, unless gates are random, every expert has prompts, two experts differ in their prompts and (unless allowed) in their models; the architecture written is a supported one with the given prefix, Mixtral if possible and else the first; the router of a layer has one row per expert, of length one unless it is shorter than 1e-8, pointing to the mean state at the last token of the positive prompts minus that of the negative ones (or to the difference of the directions of the summed token embeddings), whatever the padding.", "quantifier": "every configuration, tokenizer, causal language model, prompt set and draw", "why_tests_cant": "quantifies over all models, tokenizers and prompt lengths (padding)", "anchors": ["mergekit/moe/config.py:is_bad_config", "mergekit/moe/router.py:get_gate_params", "mergekit/moe/router.py:get_hidden_states", "mergekit/moe/router.py:get_cheap_embedding", "mergekit/scripts/moe.py:build", "mergekit/scripts/moe.py:select_output_arch"]}
{"id": "C71", "title": "Linear merges in floating point", "statement": "Computed with rounding to nearest even in the tensor's format through a wider one, in any order of summation: weight one for one model and zero for the others gives that model's entry exactly; so do one model with a power of two as weight and two copies with weights one half, unless the product underflows; non-negative weights keep the order of entries; in general the result differs from the exact weighted sum (or mean, if the weights cannot cancel) by at most an explicit number of units of roundoff of the sum of absolute values; sums and differences in bfloat16 and float16 are rounded as if once.", "quantifier": "every format, wider format, order of summation, list of weights and of entries", "why_tests_cant": "quantifies over all floating-point values, formats and orders of summation", "anchors": ["mergekit/merge_methods/linear.py:LinearMergeTask.execute"]}
{"id": "C72", "title": "Task arithmetic, SLERP and passthrough in floating point", "statement": "Models equal to the base and models of weight zero leave the base exactly as it was; a single model of weight one and lambda one comes back exactly if its difference from the base is a number of the format, in particular if the two entries are within a factor of two; in general the result is within an explicit bound of the exact one; SLERP gives its first and second model exactly at t = 0 and t = 1, on both branches; passthrough without scale or with scale one is exact.", "quantifier": "every format, wider format, order of summation, weights and entries", "why_tests_cant": "quantifies over all floating-point values, formats and orders of summation", "anchors": ["mergekit/merge_methods/generalized_task_arithmetic.py:GTATask.execute", "mergekit/merge_methods/slerp.py:slerp", "mergekit/merge_methods/passthrough.py:PassthroughMergeTask.execute"]}
{"id": "C73", "title": "Evaluating a population gives every genotype its own score", "statement": "Whatever the interleaving of the actors, a pool returns for each genotype, in order, what evaluating it alone gives; it never gets stuck and finishes; models already on disk are not touched and, unless a merge raises, no merged model is left behind and at most one per actor exists at a time; the score is the weighted sum of the metrics asked for, whatever the order of tasks, and exists exactly if all are reported; costs are the negated scores; every vector of the length of the initial genotype is configured; the best genotype kept has the least cost seen; the final configuration is the evaluated one with the original model names; common benchmarks are refused exactly unless they are training splits or were allowed.", "quantifier": "every population, interleaving, number of actors, failure pattern, task list and genome", "why_tests_cant": "quantifies over all interleavings of concurrent actors and all histories of a search", "anchors": ["mergekit/evo/strategy.py:ActorPoolEvaluationStrategy", "mergekit/evo/strategy.py:SerialEvaluationStrategy", "mergekit/evo/helpers.py:_eval_model", "mergekit/evo/helpers.py:evaluate_model", "mergekit/evo/helpers.py:merge_model", "mergekit/evo/actors.py:OnDiskMergeEvaluator", "mergekit/evo/config.py:check_for_naughty_config", "mergekit/scripts/evolve.py:main"]}
{"id": "C74", "title": "In-memory evaluation does not depend on earlier genotypes", "statement": "If all genotypes give models of one configuration and every plan gives a value to every parameter, the score of a genotype evaluated in the model kept in memory does not depend on what was evaluated before, nor on evaluations that failed half way; without vLLM the parameters are overwritten exactly if each result is a tensor for a parameter, and each then holds the last result for it; for vLLM every projection in the middle of a name goes to its own part of the stacked parameter, different names to different parts; the configuration of the model agrees with the one asked for on every compared or updated key.", "quantifier": "every history of genotypes, failure pattern, parameter set, dotted name and configuration", "why_tests_cant": "quantifies over all histories of a long-lived object and all parameter names", "anchors": ["mergekit/evo/actors.py:InMemoryMergeEvaluator._maybe_init_model", "mergekit/evo/actors.py:InMemoryMergeEvaluator.evaluate"]}
{"id": "C75", "title": "Interpolation weights of token surgery are the best of their kind", "statement": "For k from one to the number of shared tokens (other k fail) each scheme takes the k nearest tokens; least_squares gives weights whose combination of the donor rows is as near to the target as any combination is, barycentric gives weights that add up to one and are the best of those; so if the original rows are a linear (affine) image of the donor rows and the target is a linear (affine) combination of its neighbours, the new row is exactly the image of the target.", "quantifier": "every donor and original matrix, target, k and metric", "why_tests_cant": "quantifies over all real matrices, including rank-deficient ones", "anchors": ["mergekit/tokensurgeon/common_interpolation.py:common_interp_approximate", "mergekit/tokensurgeon/common_interpolation.py:approximate_from_landmarks", "mergekit/tokensurgeon/common_interpolation.py:barycentric_weights"]}
{"id": "C76", "title": "Rotary rotations and recovered positions", "statement": "Rotation to a position turns every pair of every head by position times frequency, as the rotation matrix does, and applies exactly to rows that split into heads of even size; it keeps inner products, positions add up, position zero does nothing, inner products depend on the difference of positions only; the estimated angles bring the first row as near to the second as any angles can; the estimated position is within 2e-8 (relative) of the one whose angles are nearest to those; a row without zero pairs turned to a position below pi in absolute value, and stretched, gives it back within 2e-8.", "quantifier": "every row, number and size of heads, base >= 1 and real position", "why_tests_cant": "quantifies over all real rows and positions (trigonometric identities)", "anchors": ["mergekit/tokensurgeon/rope_helpers.py:apply_rope", "mergekit/tokensurgeon/rope_helpers.py:apply_rope_theta", "mergekit/tokensurgeon/rope_helpers.py:llama_rope_rotationmat", "mergekit/tokensurgeon/rope_helpers.py:estimate_theta", "mergekit/tokensurgeon/rope_helpers.py:estimate_position_id", "mergekit/tokensurgeon/rope_helpers.py:estimate_position_id_projection"]}
{"id": "C77", "title": "Matching pursuits choose distinct points and never lose ground", "statement": "With rotations: fails in exactly four cases; otherwise chooses k distinct points, each with the largest inner product with what is left of the target, turns it to its position and subtracts its projection, which never makes the rest longer; the final coefficients are the best for the turned points, the result is their combination in the other space, and in the same space no worse than the pursuit. With resets: the first k rounds are a plain pursuit; each later round changes one place only, to the best point not in use, and is no worse than leaving the place empty; among points of one length it does not make the approximation worse while the point given back has a non-negative inner product.", "quantifier": "every set of points, target, k, order of resets and choice of maxima", "why_tests_cant": "quantifies over all real points and all random permutations", "anchors": ["mergekit/tokensurgeon/omp.py:batch_mp_rope", "mergekit/tokensurgeon/omp.py:batch_mp_resets"]}
{"id": "C78", "title": "Models are merged under their own architecture definition", "statement": "In a table where definitions sharing a name have different model types, which the shipped table is in any directory order, a model gets the only definition of its architecture name, or the one of its model type among several, and none otherwise. A merge without allow_crimes goes ahead under a definition exactly if every model has that definition, whatever their order, and infers one exactly if some model has none; models with different numbers of experts are refused. The definitions made for AFMoE and GLM-4 list, layer by layer, exactly the weights of the dense or expert form of each layer. In every shipped definition but the two Qwen-VL ones tensor names are distinct, and in every one but Solar a weight tied to others names existing weights.", "quantifier": "every table, model configuration, set of models, number of layers and experts", "why_tests_cant": "quantifies over all configurations, directory orders and layer counts for all shipped definitions at once", "anchors": ["mergekit/architecture/__init__.py:arch_info_for_config", "mergekit/architecture/__init__.py:get_architecture_info", "mergekit/architecture/moe_defs.py:AfmoeModuleArchitecture", "mergekit/architecture/moe_defs.py:Glm4MoeModuleArchitecture", "mergekit/architecture/json_definitions.py:_load_all_architectures"]}
{"id": "C79", "title": "Every method name runs its arithmetic with the configured parameters", "statement": "The twenty registered names, and no others, are merge methods. If the planned task of a method computes a tensor, this is the documented arithmetic of that method applied to the gathered tensors, with every method-wide parameter as set for the output weight, every per-model parameter as set for that model and the weight it contributes, and the documented default where nothing is set: for linear the weighted average, for slerp the spherical interpolation from the base, for passthrough the tensor or its multiple, for the eight methods of the task arithmetic family at full density base + lambda times the (consensus) average of the differences. A planned task can be built exactly if the methods that need a base model have one and yes-or-no, numeric and integral parameters are of their kind. The tensor read back from the directory of a finished linear merge is, before the cast to the output dtype, the average of the tensors the sources store, weighted as configured.", "quantifier": "every method, configuration, set of models, weight and tensors", "why_tests_cant": "quantifies over all configurations and real tensors for all methods at once", "anchors": ["mergekit/merge_methods/registry.py:STATIC_MERGE_METHODS", "mergekit/merge_methods/__init__.py:get", "mergekit/merge_methods/linear.py:LinearMerge.make_task", "mergekit/merge_methods/slerp.py:SlerpMerge.make_task", "mergekit/merge_methods/nuslerp.py:NuSlerpMerge.make_task", "mergekit/merge_methods/generalized_task_arithmetic.py:GeneralizedTaskArithmeticMerge.make_task", "mergekit/merge_methods/easy_define.py:merge_method", "mergekit/plan.py:MergePlanner.plan_tensor"]}
{"id": "C80", "title": "The tokens assumed to be well trained", "statement": "well_trained_tokens returns, in the order of the vocabulary, exactly the tokens whose id stands for something (has a token that is not listed as unused and does not have a placeholder's name), whose input row is not shorter than the given quantile of the lengths (checked when there is an output matrix), and whose input and output rows are not both above one half and above the opposite quantile in cosine with the mean of the rows that stand for nothing. Each of the filters takes less than one row more than the given share. It fails exactly when a matrix lacks a row that stands for nothing or a quantile cannot be taken. With --magikarp, a donor token that stands for nothing in both models gets a zero row.", "quantifier": "every vocabulary, matrix, quantile between the bounds, and order of set iteration", "why_tests_cant": "the thresholds depend on all rows at once and the boundary cases (equal values, whole ranks, empty sets) are rare in test data", "anchors": ["mergekit/tokensurgeon/magikarp.py:well_trained_tokens", "mergekit/scripts/tokensurgeon.py:main"]}
{"id": "C81", "title": "New tokens get rows made from the shared tokens as the other model sees them", "statement": "With the interpolating methods the row of a new token is a combination of the original model's rows of k different tokens both vocabularies have: the nearest k with the documented weights for common interpolation, the least squares fit of the token's donor row by the donor rows of the k tokens for OMP, landmark PCA and the rotating pursuit as documented. It does not depend on batches, on the numbering of the tokens, on the order in which vocabularies and sets are run through, nor on rows of tokens that only the original model has, and is computed exactly if enough tokens are shared. If the original model's shared rows are a linear image of the donor's, OMP with k the width and independent donor rows builds the image of the whole donor matrix; if they are the donor's turned and moved, landmark PCA with distinct variances builds the donor's matrix turned and moved. Without noise rows are multiplied by the scale, zero meaning none.", "quantifier": "every pair of vocabularies and matrices, method, k, batch size, new tokens and correct numerical routine", "why_tests_cant": "quantifies over all real matrices and vocabularies; a test fixes one numbering and set order", "anchors": ["mergekit/scripts/tokensurgeon.py:compute_new_embeddings", "mergekit/scripts/tokensurgeon.py:build_embedding_matrix", "mergekit/scripts/tokensurgeon.py:john_hewitt_init"]}
{"id": "C82", "title": "A decorated function gets the values set for its arguments", "statement": "merge_method accepts a function exactly if it takes tensors annotated List[torch.Tensor], a base_tensor if any is a tensor or an optional tensor, no other argument is annotated None or List without element type, and defaults of arguments annotated List[float] or List[int] are single numbers. The method's parameters are then exactly the arguments annotated int, float or bool and its per-model parameters those annotated List[float] or List[int], in the order of the signature and required exactly without default. The function is called with the tensors, the base tensor, output weight and base model it asks for, the value set for each parameter, the values set for each model in the order of the tensors, and the default of any other argument; the call goes through exactly if every argument without default is one of those and those can be given by name. The five decorated functions of the repository have exactly the parameters of their methods.", "quantifier": "every signature with distinct argument names, configuration and set of tensors", "why_tests_cant": "quantifies over all signatures; tests decorate a handful of functions", "anchors": ["mergekit/merge_methods/easy_define.py:merge_method", "mergekit/merge_methods/easy_define.py:__merge_method"]}
{"id": "C83", "title": "Sparse token bases carry the same combinations over to the other model", "statement": "The two bases consist of as many rows as the narrower model is wide; the i-th rows are the same combination of the rows of the same k different tokens which both vocabularies have and the donor does not number as junk, starting with the one most aligned with a principal direction and, if they are independent, fitted best to it after taking off the average. They exist exactly if there are such tokens, and at least k. The row of a new token is the average original row plus the combination of the original basis whose coefficients fit the donor's row less its average best by the donor's basis. If the original rows are a linear image of the donor's, the donor is not wider and its basis is independent, this is the average plus the image of the donor's row less its average; and the basis is independent, orthonormal in the narrower model, if the rows of the tokens have average zero, k is the width and any k of them are independent.", "quantifier": "every pair of vocabularies and matrices, junk, k and correct numerical routine", "why_tests_cant": "quantifies over all real matrices and vocabularies; the command cannot reach this code, so no test of it exists", "anchors": ["mergekit/tokensurgeon/token_basis.py:sparse_linear_basis", "mergekit/tokensurgeon/token_basis.py:compute_token_basis", "mergekit/scripts/tokensurgeon.py:compute_new_embeddings"]}
{"id": "C84", "title": "Models are opened once, under the options of the run", "statement": "The models that run_merge opens before planning are exactly those the configuration names, and normalisation names no other and forgets none. Every tensor the planned tasks load belongs to one of them. Opening them gives each model without a loader one opened under the options of the run, keeps every loader there is, and succeeds exactly if those models can be opened. Afterwards, however the threads that load tensors interleave, nothing is opened, no loader is replaced, and every call returns the loader opened then; so in a process all of whose runs have the same options every loader returned was opened under them, whatever settings the thread sees.", "quantifier": "every configuration, world, set of options, state of the cache, order of opening and interleaving of threads", "why_tests_cant": "quantifies over all interleavings of threads and all configurations; tests run one schedule on models on the local disk", "anchors": ["mergekit/io/tasks.py:LoaderCache.get", "mergekit/merge.py:run_merge", "mergekit/config.py:MergeConfiguration.referenced_models"]}
{"id": "C85", "title": "Devices are where the options say and do not change what is computed", "statement": "Moving a value puts every tensor in it on the device named and changes nothing else. The executor calls a task only with tensors that are all on the math device, if the task uses the accelerator, and all on the storage device otherwise, and keeps and reports every result on the storage device. So if tasks compute the same wherever their arguments are together, the run is, but for devices, the run in which nothing is moved, on any devices, with weights read to any device; the stages of the multi-GPU executor are too, unless a result the last stage needs is lost; and the merged model written does not depend on devices. The device is the one given, the one detected for auto, and else the accelerator exactly if --cuda or --gpu-rich is given; it is never empty; --gpu-rich implies its four flags; the order of the validators does not matter and validating again changes nothing.", "quantifier": "every task graph, schedule, value, current device, choice of math, storage and read devices, environment and set of options", "why_tests_cant": "tests run on the CPU, where every device is the same and nothing is ever moved; the property quantifies over all devices and graphs", "anchors": ["mergekit/graph.py:Executor._move_tensors", "mergekit/graph.py:Executor._run", "mergekit/options.py:MergeOptions", "mergekit/merge.py:run_merge", "mergekit/multigpu_executor.py:MultiGPUExecutor.run", "mergekit/io/tasks.py:LoadTensor.execute"]}
{"id": "C86", "title": "A merge on several devices leaves the same model as one on a single device", "statement": "For the tasks of any planned merge with at least one tensor, MultiGPUExecutor is built without error: the tensor writer is made first on the main thread, finalising is last on the main thread, and everything else is parallel work, of which each device executes only its own share. Provided the collector leaves no entry of a target behind on the queue: the run finishes if and only if every planned tensor (and the tokenizer, if one is built) can be computed; then the writer was given each tensor of the specified output exactly once and was finalised after that, the directory is a loadable model holding exactly that output - the same as after a run with one executor - and the tokenizer reported is the one built. A run that fails never finalises, and leaves a directory that does not load.", "quantifier": "every configuration, set of input models, merge method, number of devices, schedule of each stage, interleaving of the devices' calls on the shared writer and of their entries on the queue, entries of other tasks left behind, shard size and write interleaving", "why_tests_cant": "needs several GPUs and every interleaving of their workers with the collector thread", "anchors": ["mergekit/merge.py:run_merge", "mergekit/multigpu_executor.py:MultiGPUExecutor.run", "mergekit/multigpu_executor.py:MultiGPUExecutor._device_worker", "mergekit/io/tasks.py:SaveTensor.execute", "mergekit/io/tasks.py:FinalizeModel.execute", "mergekit/io/tensor_writer.py:TensorWriter"]}
{"id": "C87", "title": "The recorded configuration and the card describe the merge", "statement": "Without a configuration text, run_merge records the configuration as the planner left it. That configuration is valid, names the same models, and merging with it again gives the same output configuration and the same list of tensors to compute and save, and records itself - provided both runs start the output configuration from the same model and, for modules given by models without a base model, from one of theirs; the conditions on the architecture (one entry per module, numbers of layers kept under separate keys and read from there) hold for every architecture mergekit chooses from its table. The card names every model of the configuration exactly once, as the base or in the list, and no other; its metadata lists exactly the hub repositories the models and adapters are made of; a path counts as one when it does not look local and either does not exist or is known to the hub, and the card can be made exactly when every path can be told. The card of an extracted adapter notes the vocabulary sizes exactly when both are given and differ.", "quantifier": "every configuration, architecture, set of models with their configurations, order of the set of models, file system and answers of the hub", "why_tests_cant": "a merge is rarely repeated from its own record, and the hub and the file system vary", "anchors": ["mergekit/merge.py:run_merge", "mergekit/merge.py:_model_out_config", "mergekit/plan.py:MergePlanner.normalize_config", "mergekit/card.py:generate_card", "mergekit/card.py:generate_card_lora", "mergekit/card.py:is_hf", "mergekit/card.py:extract_hf_paths", "mergekit/card.py:modelref_md"]}
{"id": "C88", "title": "A configuration that is written out is read back unchanged", "statement": "A configuration written by to_yaml and read again is the same configuration with its dictionaries (parameters, modules, tokens) in the order of their keys, provided its model references are ones that survive being written (a reference given as a string without an empty revision, one with an architecture, one with a space or a quote) and no model given as tokenizer source is written as the word union or base. What is found under a key does not change; written again, the text is the same, and read again, the configuration is. The merge it describes is the same: the same output configuration, the same tensors computed by the same tasks, in the same order unless modules are given; in particular, merging with the configuration a merge recorded, as read from its text, saves the same tensors. Whatever is read from a file is well-formed (settings are numbers, gradients or conditional; exactly one of models, slices and modules; not both tokenizer and tokenizer_source).", "quantifier": "every configuration and every YAML value", "why_tests_cant": "configurations in tests are read from literals and rarely written and read back; tests do not compare dictionary orders", "anchors": ["mergekit/config.py:MergeConfiguration.to_yaml", "mergekit/config.py:MergeConfiguration", "mergekit/config.py:ParameterSetting", "mergekit/config.py:OutputModuleDefinition", "mergekit/tokenizer/config.py:TokenizerConfig", "mergekit/tokenizer/config.py:TokenEmbeddingConfig", "mergekit/common.py:ModelReference.serialize", "mergekit/common.py:ModelReference.validate_string", "mergekit/scripts/multimerge.py"]}
{"id": "C89", "title": "An embedding merged across vocabularies holds, for every output token, the merge of what the models have for that token", "statement": "When a merge with a tokenizer finishes, an embedding matrix (or output head) read back from the output directory is, before the cast to the output dtype, the merge method applied to the permuted matrices of the models of its slice: all of the number of rows announced in the output configuration, the row of an output token being the model's own vector for it where the model's tokenizer knows the token (unless a forced source is configured), else the configured source, else the base model's vector, else the mean over the models that have it. In a linear merge the row of every token is thus the weighted average of these vectors, and with normalised weights a token on whose vector all its owners agree - for instance a token of a single model - keeps that vector exactly. None of this depends on the order in which the set of models is iterated. The permutation succeeds when widths agree, the permutations lead to rows that exist and every token has an owner or a configured source, and fails when a base model is named that gave no tensor.", "quantifier": "every plan, tokenizer, token configuration, padding, schedule, set order and stored matrices", "why_tests_cant": "needs models with different vocabularies; tests merge tiny models with a handful of tokens and look at a few rows", "anchors": ["mergekit/tokenizer/embed.py:PermutedEmbeddings.execute", "mergekit/tokenizer/build.py:build_tokenizer", "mergekit/plan.py:MergePlanner.plan_tensor", "mergekit/merge.py:_update_config_vocab", "mergekit/merge_methods/linear.py:LinearMergeTask.execute", "mergekit/io/tasks.py:SaveTensor.execute"]}
{"id": "C90", "title": "A stack of layers is a copy, and merging a model with copies of itself gives it back", "statement": "In a finished passthrough merge, each weight of layer j of a slice with one source, read back from the output directory, is the weight of layer start+j of that source - times the configured scale where one is set, and otherwise, without a change of dtype, exactly the tensor that the source stores. A finished SLERP merge of two sources, one of them the base, holds the interpolation at t from the base's tensor to the other's. A finished merge of the task arithmetic family with densities of 1 holds the base's tensor plus lambda times the weighted differences, consensus and normalisation as configured. Consequently a merge whose sources all store the same tensor leaves that tensor (cast to the output dtype) under a normalised linear merge, under the whole task arithmetic family with the base among the sources, and under SLERP if its norm exceeds 1e-8; below that threshold SLERP gives a multiple of it, up to 1.41 times as large.", "quantifier": "every plan, slice, layer, weight, schedule, sharding and stored tensors", "why_tests_cant": "a test compares one tensor of a small merge; that nothing between reading the sources and the written files changes, mixes or misplaces a layer is a statement about all plans and schedules", "anchors": ["mergekit/merge_methods/passthrough.py:PassthroughMergeTask.execute", "mergekit/merge_methods/slerp.py:slerp", "mergekit/merge_methods/generalized_task_arithmetic.py:GTATask.execute", "mergekit/merge_methods/linear.py:LinearMergeTask.execute", "mergekit/plan.py:MergePlanner.plan_layer", "mergekit/io/tasks.py:SaveTensor.execute"]}
{"id": "C91", "title": "Merges of merges are determined by their configurations, whatever the order in which they run", "statement": "A finished merge leaves a directory whose index agrees with its shards and which holds exactly the specified tensors, so that it is as good an input as any: a later merge that reads it finds, under the name of a weight, the tensor computed for that name. When any number of merges run one after the other, none reading a directory that is yet to be written and no two writing to the same one, every output directory finally holds what its configuration specifies of the directories as they are then, and no other directory has changed. Two such executions of the same merges, in different orders and with different schedules, leave the same tensors in every directory.", "quantifier": "every number of stages, orders, schedules, shard sizes, writers and stored tensors", "why_tests_cant": "tests of multimerge run two or three merges in one order; that intermediate results pass through sharded files unchanged and that the order cannot be observed concerns all executions", "anchors": ["mergekit/scripts/multimerge.py:MergeModelTask.execute", "mergekit/scripts/multimerge.py:make_tasks", "mergekit/merge.py:run_merge", "mergekit/io/tensor_writer.py:TensorWriter.finalize", "mergekit/io/lazy_tensor_loader.py:ShardedTensorIndex.from_disk", "mergekit/io/tasks.py:LoadTensor.execute"]}
{"id": "C92", "title": "tokensurgeon writes the original model with the donor's vocabulary, and nothing else changed", "statement": "When a tokensurgeon run finishes, the weights it has given to the writer are those of the architecture, in order; every weight but the input and output embedding is the tensor the original model stores under its name or the first stored alias, and a weight is missing only when it is optional and the original does not have it. An embedding the original stores is replaced by a matrix with a row for each id of the donor's vocabulary and not one more, where a token of both models (well trained in both, with magikarp) keeps its row and ids of no token, of junk tokens or beyond the donor's matrix have zero rows; the donor's matrix may be found under a tied name. An embedding the original does not store is not written. The vocabulary size in the written configuration, under the architecture's key, is the number of rows of each matrix written; the special token ids are the donor's where it has them, and every other setting is the original's. Written to a new directory, a fresh loader finds exactly these tensors. For an architecture without an output embedding the run always fails.", "quantifier": "every architecture with one module, configuration, pair of stored models, vocabulary, approximation method, loader history, shard size and writer", "why_tests_cant": "the tests of tokensurgeon run a few approximation methods on two random models of one architecture; what is left alone, tied heads, missing optional weights and the agreement of configuration and matrices concern all models", "anchors": ["mergekit/scripts/tokensurgeon.py:main", "mergekit/scripts/tokensurgeon.py:get_embedding_info", "mergekit/scripts/tokensurgeon.py:maybe_aliases", "mergekit/scripts/tokensurgeon.py:get_stuff", "mergekit/scripts/tokensurgeon.py:get_out_arch_info", "mergekit/common.py:set_config_value"]}
{"id": "C93", "title": "An extracted adapter, loaded into the base model, gives the fine-tuned model up to what the rank cuts off", "statement": "When an extraction finishes, the adapter is one file that holds exactly the planned tensors, no two under the same name, whatever the order in which the tasks ran. Loading it into the base model with the recorded ranks and scales gives, for every module saved in full, the fine-tuned model's weight; for every decomposed module that is not also listed as saved in full, the base model's weight plus the truncation of the difference to its leading singular triples, so that the squared distance to the fine-tuned weight is the sum of the squares of the singular values cut off, no change of that rank comes closer, and with enough rank and no threshold the fine-tuned weight itself; and for every module nothing was planned for, the base model's weight. The run fails when a weight or bias of a decomposed module is optional and missing, although the tasks that save the parts allow for it.", "quantifier": "every list of modules with distinct ordinary names, options, pair of models, order of execution, rank and threshold", "why_tests_cant": "tests extract from one small model and compare a few logits; what each kind of module becomes, for every plan and order, and that nothing closer exists concern all models", "anchors": ["mergekit/scripts/extract_lora.py:main", "mergekit/scripts/extract_lora.py:plan_lora_module", "mergekit/scripts/extract_lora.py:plan_module_to_save", "mergekit/scripts/extract_lora.py:LoRAModuleSaveTask.execute", "mergekit/scripts/extract_lora.py:TaskVectorTask.execute", "mergekit/scripts/extract_lora.py:make_config_dict", "mergekit/io/tensor_writer.py:TensorWriter.finalize"]}
{"id": "C94", "title": "A finished mergekit-pytorch run writes the merge of every tensor that all inputs hold, whatever the options", "statement": "When a run finishes it has written, each name once, exactly the tensors that some listed model and all inputs (the base model included) hold; without --tensor-intersection these are all tensors of all listed models. Each is the merge method applied to what every input file holds under that name, each input once, in the order of the configuration with the base model last, cast to the configured type, with the parameters of C44. Two runs that finish write the same tensors, whatever the order of the set of names, of the tasks and of earlier reads, and whatever the two options. A run finishes exactly when all files can be read, with --tensor-intersection or with all inputs holding all tensors of the listed models, and every common tensor can be merged: --tensor-union never makes a difference. A fresh loader finds in the output directory exactly what was written.", "quantifier": "every configuration, set of checkpoint files, merge method, cast, pair of options, order of names and tasks, reading history and writer", "why_tests_cant": "there are no tests of this script on models with different tensors; which runs finish, and that the options cannot change what a finished run writes, concern all inputs", "anchors": ["mergekit/scripts/merge_raw_pytorch.py:main", "mergekit/scripts/merge_raw_pytorch.py:plan_flat_merge", "mergekit/scripts/merge_raw_pytorch.py:SimpleLoaderCache.get", "mergekit/scripts/merge_raw_pytorch.py:SimpleLoadTensor.execute", "mergekit/merge_methods/base.py:TensorDictWrapper.execute", "mergekit/io/lazy_tensor_loader.py:ShardedTensorIndex.from_file"]}
{"id": "C95", "title": "A finished mergekit-moe run aligns every router row with its expert and takes everything else from the base model", "statement": "When a run finishes, every name is written once and only names of the mixture are written. Every tensor outside the MLPs is the one the base model's directory holds, cast; all are there but for an output embedding the base model does not store and, for Qwen MoE, attention biases, which are then zeros, as many as heads times hidden_size // num_attention_heads. In every layer the router has one row per expert, row k is the gate vector computed for expert k in the configured mode, and the weights in place k (a slice of the stacked tensors for Mixtral and Qwen3, tensors of their own otherwise) are those of the same expert's directory with its own noise and scale. A shared expert's weights are its own, and the gate of Qwen's shared expert is the single row computed for it; Mixtral and Qwen3 never have one. Once the gates are computed, a run finishes exactly when all directories open, no tensor is missing and the shared expert is also the base model or an expert. A fresh loader finds in the output directory exactly what was written.", "quantifier": "every configuration, model directory with an index agreeing with its shards, language model, tokenizer, source of random numbers, tensor operations and writer", "why_tests_cant": "tests build one or two tiny mixtures and only check that they load; that rows and experts correspond in every layer for every configuration is never looked at", "anchors": ["mergekit/scripts/moe.py:build", "mergekit/moe/common.py:initialize_io", "mergekit/moe/mixtral.py:MixtralMoE.write_model", "mergekit/moe/deepseek.py:DeepseekMoE.write_model", "mergekit/moe/qwen.py:QwenMoE.write_model", "mergekit/moe/qwen3.py:Qwen3MoE.write_model", "mergekit/moe/router.py:get_gate_params"]}
{"id": "C96", "title": "The configuration mergekit-moe writes describes the tensors it writes", "statement": "For every architecture the number of experts recorded is that of the configuration and of the rows of every router that is written, and num_experts_per_tok is the configured one and lies between 1 and it. Class and model type are those of the chosen architecture; the size of the experts is the base model's intermediate size; a DeepSeek configuration says one shared expert exactly if there is one, and that every layer is a mixture. Every field that does not describe the mixture is the base model's or, if that has none, the default of the class (of Mistral's before Mixtral's when the base is not a Mistral model). The recorded type is the configured one, else the base model's, and it is the type the tensors are cast to. The configuration can be made exactly if that type is known and the base model's configuration has max_position_embeddings (Mixtral, other than from Mistral) or intermediate_size (the others, or the class's default).", "quantifier": "every configuration, base model configuration, set of configuration classes, language model, tokenizer, model directories and tensor operations", "why_tests_cant": "tests only load the written mixtures of one or two tiny models; agreement of every field for every base configuration is not looked at", "anchors": ["mergekit/moe/mixtral.py:MixtralMoE._generate_config", "mergekit/moe/deepseek.py:DeepseekMoE._generate_config", "mergekit/moe/qwen.py:QwenMoE._generate_config", "mergekit/moe/qwen3.py:Qwen3MoE._generate_config", "mergekit/moe/common.py:select_dtype", "mergekit/common.py:dtype_from_name"]}
{"id": "C97", "title": "The command line of mergekit-yaml sets exactly the options it names", "statement": "Every field of MergeOptions has the value of the last option about it (switches in their --x and --no-x forms, values as the next word or after =, -j with its value in the same or the next word) and its documented default if there is none; the verbosity is the number of v's in all -v words; cuda, low_cpu_memory, read_to_gpu and multi_gpu are set if they or --gpu-rich are on, and the device is the one given, the one detected for auto, or follows from them. The remaining words, and all after --, are the arguments. A command line is accepted exactly if it has two arguments and the texts last given for numbers and sizes can be read; a word with two dashes that names no option, and a switch with a value, are refused whatever follows.", "quantifier": "every sequence of options and arguments in every spelling, every text given as a value, every available accelerator", "why_tests_cant": "tests build MergeOptions in Python and never parse a command line; spellings, repetitions and orders are unbounded", "anchors": ["mergekit/options.py:MergeOptions", "mergekit/options.py:add_merge_options", "mergekit/options.py:ShardSizeParamType", "mergekit/scripts/run_yaml.py:main"]}
