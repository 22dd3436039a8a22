(** Model of mergekit/tokenizer/normalization.py and mergekit/scripts/tokensurgeon.py (the approximation methods are in
    [Approx.v]).

    A Python string is a list of code points. Embedding rows have an arbitrary type; a matrix is the list of its rows. *)
From Verif.Base Require Import Py.
Local Open Scope string_scope.
Local Open Scope list_scope.

Definition text := list N.
(** ASCII literals *)
Fixpoint u (s : string) : text := match s with EmptyString => [] | String c s => N_of_ascii c :: u s end.

#[export] Instance Eqb_N : Eqb N := {| eqb := N.eqb; eqb_iff := N.eqb_eq |}.
Fixpoint list_eqb {A} `{Eqb A} (x y : list A) : bool :=
  match x, y with [], [] => true | a :: x, b :: y => eqb a b && list_eqb x y | _, _ => false end.
Lemma list_eqb_iff {A} `{Eqb A} : forall x y : list A, list_eqb x y = true <-> x = y.
Proof.
  induction x as [|a x IH]; destruct y as [|b y]; cbn; try (split; congruence).
  rewrite andb_true_iff, eqb_iff, IH. split; [intros []; congruence|intros [=]; auto].
Qed.
#[export] Instance Eqb_list {A} `{Eqb A} : Eqb (list A) := {| eqb := list_eqb; eqb_iff := list_eqb_iff |}.

(** ** normalization.py *)
(** [NormalizedToken] (19): a string, or a marker and a string *)
Inductive ntok := TPlain (t : text) | TStart (t : text) | TSpecial (t : text).
Definition ntok_eqb (x y : ntok) : bool :=
  match x, y with
  | TPlain a, TPlain b => eqb a b | TStart a, TStart b => eqb a b | TSpecial a, TSpecial b => eqb a b
  | _, _ => false
  end.
Lemma ntok_eqb_iff x y : ntok_eqb x y = true <-> x = y.
Proof. destruct x, y; cbn [ntok_eqb]; try (split; congruence); rewrite eqb_iff; split; congruence. Qed.
#[export] Instance Eqb_ntok : Eqb ntok := {| eqb := ntok_eqb; eqb_iff := ntok_eqb_iff |}.

Fixpoint starts_with (p t : text) : bool :=
  match p, t with [], _ => true | a :: p, b :: t => N.eqb a b && starts_with p t | _ :: _, [] => false end.

(** [normalize_token] (22-39); [special_tokens_map] with its values as lists *)
Definition normalize_token (specials : dict text (list text)) (prefix : text) (t : text) : ntok :=
  if starts_with prefix t then TStart (skipn (length prefix) t)
  else match find (fun kv => mem t (snd kv)) specials with
       | Some kv => TSpecial (fst kv)
       | None => TPlain t
       end.
(** [unnormalize_token] (42-47) *)
Definition unnormalize (t : ntok) : text :=
  match t with TStart t => 32%N :: t | TSpecial t => t | TPlain t => t end.

(** [str.isspace] of one code point *)
Definition is_space (c : N) : bool :=
  ((9 <=? c) && (c <=? 13) || (28 <=? c) && (c <=? 32) || (c =? 133) || (c =? 160) || (c =? 5760) ||
   (8192 <=? c) && (c <=? 8202) || (c =? 8232) || (c =? 8233) || (c =? 8239) || (c =? 8287) || (c =? 12288))%N.

(** [token_prefixes] (50-69) with allow_whitespace = False: from the longest proper prefix down *)
Fixpoint prefixes_from (t : text) (i : nat) : list text :=
  match i with
  | O => []
  | S i' => let p := firstn i t in
            if forallb is_space p then [] else p :: prefixes_from t i'
  end.
Definition token_prefixes (t : ntok) : list ntok :=
  match t with
  | TSpecial _ => []
  | TStart t => map TStart (prefixes_from t (length t - 1))
  | TPlain t => map TPlain (prefixes_from t (length t - 1))
  end.

(** [normalized_vocabulary] (72-121) *)
Inductive style := Gpt2 | SentencePiece | Unknown_.
Definition gpt2_mark : text := [288%N].    (* Ġ *)
Definition sp_mark : text := [9601%N].     (* ▁ *)
Definition word_start (s : style) (vocab : dict text nat) : text :=
  match s with
  | Gpt2 => gpt2_mark
  | SentencePiece => if dmem vocab (gpt2_mark ++ u "hello") then gpt2_mark else sp_mark
  | Unknown_ => gpt2_mark
  end.
Definition normalized_vocabulary (s : style) (specials : dict text (list text)) (vocab : dict text nat) : dict ntok nat :=
  dict_of (map (fun ti => (normalize_token specials (word_start s vocab) (fst ti), snd ti)) vocab).

(** ** Matching (tokensurgeon.py 171-199) *)
(** "%02X" *)
Definition hex_char (n : N) : N := if (n <? 10)%N then (48 + n)%N else (55 + n)%N.
Definition byte_token (c : N) : text := u "<0x" ++ [hex_char (c / 16); hex_char (c mod 16)] ++ u ">".
(** one hexadecimal digit; [int] also accepts the decimal digits of other scripts, left out here *)
Definition hex_val (c : N) : option N :=
  if ((48 <=? c) && (c <=? 57))%N then Some (c - 48)%N
  else if ((65 <=? c) && (c <=? 70))%N then Some (c - 55)%N
  else if ((97 <=? c) && (c <=? 102))%N then Some (c - 87)%N
  else None.
Fixpoint lstrip (t : text) : text := match t with c :: t' => if is_space c then lstrip t' else t | [] => [] end.
Definition strip (t : text) : text := rev (lstrip (rev (lstrip t))).
(** [int(s, 16)] for a string of two characters: surrounding white space and a sign are accepted *)
Definition int16 (t : text) : option Z :=
  match strip t with
  | [a] => option_map Z.of_N (hex_val a)
  | [a; b] =>
      match hex_val a, hex_val b with
      | Some x, Some y => Some (Z.of_N (16 * x + y))
      | None, Some y => if (a =? 43)%N then Some (Z.of_N y) else if (a =? 45)%N then Some (- Z.of_N y)%Z else None
      | _, None => None
      end
  | _ => None
  end.
Definition ends_with (p t : text) : bool := starts_with (rev p) (rev t).

(** [match_byte_token] (171-190). [chr] of a negative number raises ValueError outside the try block. *)
Definition match_byte_token (t : ntok) (vocab : dict ntok nat) : result (option nat) :=
  match t with
  | TPlain s =>
      match s with
      | [c] => if (c <? 256)%N then Ok (dget vocab (TPlain (byte_token c))) else Ok None
      | _ =>
          if starts_with (u "<0x") s && ends_with (u ">") s && Nat.eqb (length s) 6 then
            match int16 (firstn 2 (skipn 3 s)) with
            | None => Ok None
            | Some b => if (b <? 0)%Z then Err ValueError else Ok (dget vocab (TPlain [Z.to_N b]))
            end
          else Ok None
      end
  | _ => Ok None
  end.
(** [match_prefix] (193-199) *)
Fixpoint first_of (l : list ntok) (vocab : dict ntok nat) : option nat :=
  match l with [] => None | p :: l => match dget vocab p with Some i => Some i | None => first_of l vocab end end.
Definition match_prefix (t : ntok) (vocab : dict ntok nat) : option nat := first_of (token_prefixes t) vocab.

(** ** [build_embedding_matrix] (392-523) *)
Section Build.
Context {V : Type}.
Variable zero : V.
(** [compute_new_embeddings] on one batch, followed by the noise and the scale (498-511) *)
Variable approx : list ntok -> result (list V).

(** [m[i] = v] *)
Definition update (m : list V) (i : nat) (v : V) : result (list V) :=
  if Nat.ltb i (length m) then Ok (firstn i m ++ v :: skipn (S i) m) else Err IndexError.
Fixpoint rfold {A B} (f : A -> B -> result A) (a : A) (l : list B) : result A :=
  match l with [] => Ok a | x :: l => let! a := f a x in rfold f a l end.

(** 410-412: entries within the rows of the matrix *)
Definition safe (rows : nat) (vocab : dict ntok nat) : dict ntok nat := filter (fun kv => Nat.ltb (snd kv) rows) vocab.

(** the row of the original matrix taken for a donor token, if any (457-477) *)
Definition match_token (allow_prefix allow_byte : bool) (orig : dict ntok nat) (t : ntok) : result (option nat) :=
  match dget orig t with
  | Some i => Ok (Some i)
  | None =>
      let! b := if allow_byte then match_byte_token t orig else Ok None in
      match b with
      | Some i => Ok (Some i)
      | None => Ok (if allow_prefix then match_prefix t orig else None)
      end
  end.

(** 453-480: the assigned rows, and the tokens left to approximate *)
Definition assign_step allow_prefix allow_byte (orig : dict ntok nat) (orig_embed : list V) (donor_rows : nat)
    (st : list V * list ntok) (ti : ntok * nat) : result (list V * list ntok) :=
  let '(res, new) := st in
  let '(t, donor_idx) := ti in
  if Nat.leb donor_rows donor_idx then Ok (res, new)
  else let! m := match_token allow_prefix allow_byte orig t in
       match m with
       | Some j => let! v := nthE orig_embed j in let! res := update res donor_idx v in Ok (res, new)
       | None => Ok (res, new ++ [t])
       end.

(** [range(0, len(l), size)] and slices *)
Fixpoint chunks {A} (fuel size : nat) (l : list A) : list (list A) :=
  match fuel with
  | O => []
  | S fuel => match l with [] => [] | _ => firstn size l :: chunks fuel size (skipn size l) end
  end.
Definition batches (size : option Z) (new : list ntok) : list (list ntok) :=
  let n := match size with Some n => if (n <=? 0)%Z then length new else Z.to_nat n | None => length new end in
  chunks (length new) n new.

(** one batch (496-515) *)
Definition batch_step (donor : dict ntok nat) (res : list V) (ts : list ntok) : result (list V) :=
  let! es := approx ts in
  rfold (fun res (ki : nat * ntok) =>
           let! i := dgetE donor (snd ki) in let! v := nthE es (fst ki) in update res i v)
        res (combine (seq 0 (length ts)) ts).

Definition lmax (l : list nat) : nat := fold_right Nat.max 0 l.
Definition out_size (donor : dict ntok nat) : result nat :=
  match donor with [] => Err ValueError | _ => Ok (Nat.max (length donor) (lmax (dvals donor) + 1)) end.

(** [stb]: the method is SPARSE_TOKEN_BASIS, whose [compute_token_basis] receives the options object as [k] (434-441)
    and fails comparing it with an integer. The zeroed rows are [junk] and the out-of-range donor ids (429-431). *)
Definition build (stb : bool) (batch_size : option Z) (allow_prefix allow_byte : bool)
    (orig_embed : list V) (donor_rows : nat) (orig donor : dict ntok nat) (junk : list nat) : result (list V) :=
  let! size := out_size donor in
  let safe_orig := safe (length orig_embed) orig in
  let junk := junk ++ filter (fun i => Nat.leb donor_rows i) (dvals donor) in
  if stb then Err TypeError else
  let! (res, new) := rfold (assign_step allow_prefix allow_byte safe_orig orig_embed donor_rows) (repeat zero size, []) donor in
  let! res := rfold (batch_step donor) res (batches batch_size new) in
  rfold (fun res i => update res i zero) res junk.
End Build.

(** ** [main] (624-797) *)
Inductive allow_match := LmHeadOnly | EmbedOnly | Yes | No.
(** 720-721 *)
Definition embed_allows (m : allow_match) : bool := match m with Yes | LmHeadOnly => true | _ => false end.
(** 744-745 *)
Definition lm_head_allows (m : allow_match) : bool := match m with Yes | EmbedOnly => true | _ => false end.

(** magikarp (667-706): the well-trained tokens of the two models *)
Definition magikarp_orig (wt_orig wt_donor : list ntok) (orig : dict ntok nat) : dict ntok nat :=
  filter (fun kv => mem (fst kv) wt_orig && mem (fst kv) wt_donor) orig.
Definition magikarp_junk (wt_orig wt_donor : list ntok) (donor : dict ntok nat) : list nat :=
  dvals (filter (fun kv => negb (mem (fst kv) wt_donor) && negb (mem (fst kv) wt_orig)) donor).

Record cli := { c_stb : bool; c_batch : option Z; c_prefix : allow_match; c_byte : allow_match }.

Section Main.
Context {V : Type}.
Variable zero : V.
(** the approximation, given which matrix is built, the two matrices and the two (restricted) vocabularies *)
Variable approx : bool -> list V -> list V -> dict ntok nat -> dict ntok nat -> list ntok -> result (list V).

Definition one_matrix (c : cli) (is_lm_head optional : bool) (orig donor : option (list V))
    (orig_vocab donor_vocab : dict ntok nat) (junk : list nat) : result (option (list V)) :=
  match orig with
  | None => if optional then Ok None else Err RuntimeError
  | Some o =>
      match donor with
      | None => Err RuntimeError
      | Some d =>
          let allows := if is_lm_head then lm_head_allows else embed_allows in
          let! m := build zero (approx is_lm_head o d (safe (length o) orig_vocab) (safe (length d) donor_vocab))
                      (c_stb c) (c_batch c) (allows (c_prefix c)) (allows (c_byte c)) o (length d) orig_vocab donor_vocab junk in
          Ok (Some m)
      end
  end.

(** 707-756; [karp]: the two lists of well-trained tokens when --magikarp is given *)
Definition surgery (c : cli) (karp : option (list ntok * list ntok)) (embed_optional lm_optional : bool)
    (orig_embed donor_embed orig_head donor_head : option (list V)) (orig_vocab donor_vocab : dict ntok nat)
  : result (option (list V) * option (list V)) :=
  let '(ov, junk) := match karp with
                     | Some (wo, wd) => (magikarp_orig wo wd orig_vocab, magikarp_junk wo wd donor_vocab)
                     | None => (orig_vocab, [])
                     end in
  let! e := one_matrix c false embed_optional orig_embed donor_embed ov donor_vocab junk in
  let! h := one_matrix c true lm_optional orig_head donor_head ov donor_vocab junk in
  Ok (e, h).
End Main.

(** the weights written (764-787): the two new matrices under their names, everything else from the original model *)
Section Save.
Context {T : Type}.
Variable get : string -> option T.     (* the original model's tensor, by name or alias *)
Definition save_weights (embed_name lm_name : string) (new_embed new_head : option T) (weights : list (string * bool))
  : result (list (string * T)) :=
  let! l := rmapM (fun wo : string * bool =>
      let '(w, optional) := wo in
      let t := if eqb w embed_name then new_embed else if eqb w lm_name then new_head else get w in
      match t with
      | Some t => Ok [(w, t)]
      | None => if optional then Ok [] else Err RuntimeError
      end) weights in
  Ok (concat l).
End Save.
