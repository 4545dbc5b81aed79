(** Properties of the tokenizer. *)

From Coq Require Import ZArith Bool String List Lia.
From Verif Require Import TokenModel TokenSpec TokenProofs TokenProofs2 TokenProofs3 TokenProofs4 TokenCases.
Import ListNotations.
Open Scope Z_scope.

(** ** C57 Number literals have their value *)

(** Missing in the partial statements: values of 2^32 and more, the prefix $,
    binary numbers and a prefix without digits; all are refuted below.  Reals
    are not claimed. *)
Theorem C57_decimal_partial : forall e c k ds x r,
  ahead c (ds ++ x :: r) -> ds <> [] -> Forall dec_digit ds -> dec_value ds < 4294967296 ->
  ~ dec_digit x -> x <> 101 -> x <> 69 -> (x = 46 -> exists r', r = 46 :: r') ->
  exists c' k', settles e c k (TOk c' k') /\ ahead c' (x :: r) /\
    k_tok k' = tINT_CONST /\ k_uint k' = dec_value ds /\ k_errs k' = k_errs k.
Proof. exact decimal. Qed.
Print Assumptions C57_decimal_partial.

Example C57_decimal_case : let ds := chars "4096" in
  ahead (src "4096..5") (ds ++ 46 :: chars ".5" ++ [10]) /\ Forall dec_digit ds /\ dec_value ds = 4096.
Proof. cbv zeta. split; [apply src_ahead|]. split; [repeat constructor; vm_compute; intuition discriminate | reflexivity]. Qed.

Theorem C57_hex_partial : forall e c k ds ns x r,
  ahead c (37 :: ds ++ x :: r) -> ds <> [] -> Forall2 hex_digit ds ns -> value_in 16 ns < 4294967296 ->
  (forall n, ~ hex_digit x n) ->
  exists c' k', settles e c k (TOk c' k') /\ ahead c' (x :: r) /\
    k_tok k' = tINT_CONST /\ k_uint k' = value_in 16 ns /\ k_errs k' = k_errs k.
Proof. exact hexadecimal_literal. Qed.
Print Assumptions C57_hex_partial.

Example C57_hex_case : ahead (src "%1fA;") (37 :: chars "1fA" ++ 59 :: [10]) /\ Forall2 hex_digit (chars "1fA") [1; 15; 10] /\
  value_in 16 [1; 15; 10] = 506 /\ forall n, ~ hex_digit 59 n.
Proof.
  split; [apply src_ahead|]. split; [|split; [reflexivity | intros n H; remember 59 as z; destruct H; lia]].
  constructor; [apply (hd_digit 1); lia|]. constructor; [apply (hd_lower 15); lia|]. constructor; [apply (hd_upper 10); lia | constructor].
Qed.

(** A number that does not fit: sscanf is undefined, no error is reported *)
Theorem C57_large_refuted : forall e c k ds x r,
  ahead c (ds ++ x :: r) -> ds <> [] -> Forall dec_digit ds -> 4294967296 <= dec_value ds ->
  ~ dec_digit x -> x <> 101 -> x <> 69 -> x <> 46 -> settles e c k TUB.
Proof. exact decimal_large. Qed.
Print Assumptions C57_large_refuted.

Example C57_large_case : let ds := chars "4294967296" in
  ahead (src "4294967296;") (ds ++ 59 :: [10]) /\ Forall dec_digit ds /\ 4294967296 <= dec_value ds.
Proof. cbv zeta. split; [apply src_ahead|]. split; [repeat constructor; vm_compute; intuition discriminate | vm_compute; discriminate]. Qed.

(** pas_token.c:1044: the prefix of hexadecimal numbers is tested as '%' *)
Theorem C57_dollar_refuted : exists c k c' k',
  ahead c (chars "$1F;" ++ [10]) /\ settles nobody c k (TOk c' k') /\ k_tok k' = 36 /\ ahead c' (chars "1F;" ++ [10]).
Proof. exact dollar_refuted. Qed.
Print Assumptions C57_dollar_refuted.

Theorem C57_binary_refuted : exists c k c' k',
  ahead c (chars "%101;" ++ [10]) /\ settles nobody c k (TOk c' k') /\ k_tok k' = tINT_CONST /\ k_uint k' = 257 /\
  value_in 2 [1; 0; 1] = 5.
Proof. exact binary_refuted. Qed.
Print Assumptions C57_binary_refuted.

(** A prefix without digits is an integer constant: the previous one *)
Theorem C57_percent_refuted : forall e c k x r, ahead c (37 :: x :: r) -> (forall n, ~ hex_digit x n) ->
  exists c' k', settles e c k (TOk c' k') /\ k_tok k' = tINT_CONST /\ k_uint k' = k_uint k.
Proof. exact percent_alone. Qed.
Print Assumptions C57_percent_refuted.

Example C57_percent_case : ahead (src "%;") (37 :: 59 :: [10]) /\ forall n, ~ hex_digit 59 n.
Proof. split; [apply src_ahead|]. intros n H; remember 59 as z; destruct H; lia. Qed.

(** ** C58 String literals *)

Theorem C58_string : forall e c k s x r,
  ahead c (literal s ++ x :: r) -> x <> 39 -> ~ In 10 s -> Z.of_nat (List.length s) < 65537 -> List.length s <> 1%nat ->
  exists c' k', settles e c k (TOk c' k') /\ ahead c' (x :: r) /\ k_tok k' = tSTRING_CONST /\ k_str k' = s /\ k_errs k' = k_errs k.
Proof. exact string_literal. Qed.
Print Assumptions C58_string.

Example C58_string_case : ahead (src "'it''s';") (literal (chars "it's") ++ 59 :: [10]) /\ ~ In 10 (chars "it's").
Proof. split; [apply src_ahead|]. vm_compute. intuition discriminate. Qed.

(** Missing: characters from 128 on, refuted below *)
Theorem C58_char_partial : forall e c k a x r,
  ahead c (literal [a] ++ x :: r) -> x <> 39 -> a <> 10 -> 0 <= a < 128 ->
  exists c' k', settles e c k (TOk c' k') /\ ahead c' (x :: r) /\ k_tok k' = tCHAR_CONST /\ k_uint k' = a /\ k_errs k' = k_errs k.
Proof. exact char_literal. Qed.
Print Assumptions C58_char_partial.

Example C58_char_case : ahead (src "'''';") (literal [39] ++ 59 :: [10]).
Proof. apply src_ahead. Qed.

(** A string that is not closed on its line is reported *)
Theorem C58_open : forall e c k l r,
  ahead c (39 :: l ++ 10 :: r) -> ~ In 39 l -> ~ In 10 l ->
  exists c' k', settles e c k (TOk c' k') /\ k_errs k' = k_errs k ++ [eNOSQUOTE].
Proof. exact string_open. Qed.
Print Assumptions C58_open.

Example C58_open_case : ahead (src "'abc") (39 :: chars "abc" ++ 10 :: []) /\ ~ In 39 (chars "abc") /\ ~ In 10 (chars "abc").
Proof. split; [apply src_ahead|]. vm_compute. intuition discriminate. Qed.

Theorem C58_high_refuted : forall e c k a x r,
  ahead c (literal [a] ++ x :: r) -> x <> 39 -> 128 <= a < 256 ->
  exists c' k', settles e c k (TOk c' k') /\ k_tok k' = tCHAR_CONST /\ k_uint k' = a + 4294967040.
Proof. exact high_char. Qed.
Print Assumptions C58_high_refuted.

Example C58_high_case : ahead (prime (literal [233] ++ [59; 10])) (literal [233] ++ 59 :: [10]).
Proof. apply prime_ahead. discriminate. Qed.

(** ** C59 Blanks and comments do not matter *)

Theorem C59_layout : forall e ls, Forall layout ls -> forall c x r, ahead c (concat ls ++ x :: r) ->
  exists c', ahead c' (x :: r) /\ forall k res, res <> TFuel -> settles e c' k res -> settles e c k res.
Proof. exact layouts_skipped. Qed.
Print Assumptions C59_layout.

Example C59_layout_case : let ls := [[32]; chars "{ a * b }"; [9]; chars "(* ** ) *)"; chars "/* / * (* */"] in
  Forall layout ls /\ ahead (prime (concat ls ++ chars "x" ++ [10])) (concat ls ++ 120 :: [10]).
Proof.
  cbv zeta. split; [|apply prime_ahead; discriminate].
  constructor; [apply lay_blank; unfold blank; lia|].
  constructor; [apply (lay_brace (chars " a * b ")); vm_compute; intuition discriminate|].
  constructor; [apply lay_blank; unfold blank; lia|].
  constructor; [apply (lay_paren (chars " ** ) ")); vm_compute; intuition discriminate|].
  constructor; [apply (lay_slash (chars " / * (* ")); vm_compute; intuition discriminate|constructor].
Qed.

(** Comments to the end of the line.  Missing: lines longer than 254 characters,
    refuted below. *)
Theorem C59_line_partial : forall e c s x r, by_lines c -> ahead c (47 :: 47 :: s ++ 10 :: x :: r) -> ~ In 10 s ->
  exists c', ahead c' (x :: r) /\ by_lines c' /\ forall k res, res <> TFuel -> settles e c' k res -> settles e c k res.
Proof. exact line_comment. Qed.
Print Assumptions C59_line_partial.

Theorem C59_start : forall f, text_of 254 f -> f <> [] -> by_lines (prime f) /\ ahead (prime f) f.
Proof. exact prime_lines. Qed.
Print Assumptions C59_start.

Theorem C59_next : forall c x y r, by_lines c -> ahead c (x :: y :: r) -> by_lines (get_char c).
Proof. exact by_lines_next. Qed.
Print Assumptions C59_next.

Example C59_line_case : text_of 254 (chars "// c" ++ 10 :: chars "x" ++ [10]).
Proof.
  apply (text_line 254 (chars "// c")); [vm_compute; lia | vm_compute; intuition discriminate|].
  apply (text_line 254 (chars "x")); [vm_compute; lia | vm_compute; intuition discriminate|]. constructor.
Qed.

Theorem C59_long_refuted : exists f s c' k', f = 47 :: 47 :: s ++ [10] /\ ~ In 10 s /\ ahead (prime f) f /\
  settles nobody (prime f) fresh (TOk c' k') /\ k_tok k' = tIDENT /\ k_str k' = repeat 97 47.
Proof. exact long_comment_refuted. Qed.
Print Assumptions C59_long_refuted.

(** ** C60 The tokenizer comes to an end *)

(** Missing: comments (those that are closed are covered by C59); an open one
    is refuted below *)
Theorem C60_ends_partial : forall e c k m, ahead c (m ++ [10]) -> no_comment m -> exists r, r <> TFuel /\ settles e c k r.
Proof. exact ends. Qed.
Print Assumptions C60_ends_partial.

Example C60_ends_case : ahead (src "x := 'a' // b") (chars "x := 'a' // b" ++ [10]) /\ no_comment (chars "x := 'a' // b").
Proof. split; [apply src_ahead|]. unfold no_comment. vm_compute. intuition discriminate. Qed.

Theorem C60_open_refuted : exists c m, ahead c (m ++ [10]) /\ forall e k, never e c k.
Proof. exact open_comment_refuted. Qed.
Print Assumptions C60_open_refuted.

(** The file holds one identifier; it is delivered again and again *)
Theorem C60_end_refuted : forall n, exists c', nth_token nobody (2 * n) (prime xline) fresh c' k_x.
Proof. exact endless_tokens. Qed.
Print Assumptions C60_end_refuted.

Example C60_end_case : xline = chars "x" ++ [10] /\ k_tok k_x = tIDENT /\ k_str k_x = chars "x".
Proof. repeat split. Qed.

(** ** C61 The longest special symbol is taken *)

Theorem C61_longest : forall e c k p t x r,
  ahead c (p ++ x :: r) -> longest p t (p ++ x :: r) ->
  ~ (p = [40] /\ x = 42) -> ~ (p = [47] /\ (x = 42 \/ x = 47)) -> ~ (p = [46] /\ dec_digit x) ->
  exists c' k', settles e c k (TOk c' k') /\ ahead c' (x :: r) /\ k_tok k' = t /\ k_errs k' = k_errs k.
Proof. exact special. Qed.
Print Assumptions C61_longest.

Example C61_case : ahead (src "<=1") ([60; 61] ++ 49 :: [10]) /\ longest [60; 61] tLE ([60; 61] ++ 49 :: [10]).
Proof.
  split; [apply src_ahead|]. split; [vm_compute; tauto|]. split; [reflexivity|].
  intros q u I _. assert (T : forallb (fun s => Nat.leb (List.length (fst s)) 2) specials = true) by (vm_compute; reflexivity).
  rewrite forallb_forall in T. apply T in I. apply PeanoNat.Nat.leb_le in I. exact I.
Qed.

(** ** C62 Reserved words *)

Theorem C62_reserved : forall e c k w x r t sub, ahead c (w ++ x :: r) -> is_word w -> ~ word_char x ->
  (reserved w t sub \/ exists n, alias_of w n /\ reserved n t sub) ->
  exists c' k', settles e c k (TOk c' k') /\ ahead c' (x :: r) /\ k_tok k' = t /\ k_sub k' = sub /\ k_errs k' = k_errs k.
Proof. exact reserved_word. Qed.
Print Assumptions C62_reserved.

Example C62_case : is_word (chars "xoR") /\ reserved (chars "xoR") tXOR 0 /\ is_word (chars "close") /\
  alias_of (chars "close") (chars "CLOSEFILE") /\ reserved (chars "CLOSEFILE") tSTDPROC 139.
Proof.
  split; [apply word_b_ok; reflexivity|]. split; [apply find_reserved_iff; [apply no_nul_cname|vm_compute]; reflexivity|].
  split; [apply word_b_ok; reflexivity|]. split; [exists (chars "CLOSE"); split; [vm_compute; tauto | apply same_name_lower; reflexivity]|].
  apply find_reserved_iff; [apply no_nul_cname|vm_compute]; reflexivity.
Qed.

(** Each word of the language, in capital or small letters, yields its own token *)
Theorem C62_word_symbols : forall e c k n w x r t sub, In (n, t, sub) word_symbols -> same_name n w ->
  ahead c (w ++ x :: r) -> ~ word_char x ->
  exists c' k', settles e c k (TOk c' k') /\ ahead c' (x :: r) /\ k_tok k' = t /\ k_sub k' = sub /\ k_errs k' = k_errs k.
Proof.
  exact (fun e c k n w x r t sub I S A X => let H := word_symbol n t sub w I S in
           reserved_word e c k w x r t sub A (proj1 H) X (or_introl (proj2 H))).
Qed.
Print Assumptions C62_word_symbols.

Theorem C62_distinct : forall n1 n2 t sub, In (n1, t, sub) word_symbols -> In (n2, t, sub) word_symbols -> n1 = n2.
Proof. exact word_symbols_differ. Qed.
Print Assumptions C62_distinct.

Example C62_word_case : In (chars "DIV", 133, 0) word_symbols /\ same_name (chars "DIV") (chars "dIv").
Proof. split; [vm_compute; tauto | apply same_name_lower; reflexivity]. Qed.

(** ** C63 Names denote the latest declaration in scope *)

(** Missing: the seven alternative names of the table g_aliasTable, refuted
    below.  [wantField]: behind '.' or inside of WITH *)
Theorem C63_lookup_partial : forall e c k w x r, ahead c (w ++ x :: r) -> is_word w -> ~ word_char x -> free_name w -> names_ok e ->
  exists c' k', settles e c k (TOk c' k') /\ ahead c' (x :: r) /\ k_errs k' = k_errs k /\
    let wantField := (k_tok k =? 46) || inWith e in
    (forall i y, denotes e w wantField i y -> token_of y i k') /\
    (denotes_none e w wantField -> forall i y, denotes e w false i y -> token_of y i k') /\
    (denotes_none e w wantField -> denotes_none e w false -> unknown_name w k').
Proof. exact free_word. Qed.
Print Assumptions C63_lookup_partial.

Example C63_case : names_ok e_scopes /\ free_name (chars "count") /\ is_word (chars "count") /\
  (exists y, denotes e_scopes (chars "count") false 1 y) /\ exists y, denotes e_scopes (chars "count") true 2 y.
Proof. exact scopes_case. Qed.

(** getLevelToken sees the current level only *)
Theorem C63_level : forall e start c k f c' k' i,
  get_level_token f e start c k = TOk c' k' -> k_ptr k' = Some i -> (start <= i)%nat.
Proof. exact level_range. Qed.
Print Assumptions C63_level.

Example C63_level_case : exists c' k', get_level_token 9 e_scopes 1 (src "count;") fresh = TOk c' k' /\ k_ptr k' = Some 1%nat.
Proof. eexists _, _. split; vm_compute; reflexivity. Qed.

(** A variable called Text cannot be used: the name looked up is TEXTFILE *)
Theorem C63_alias_refuted : exists e c k w x r i y c' k', ahead c (w ++ x :: r) /\ is_word w /\ ~ word_char x /\
  (forall t s, ~ reserved w t s) /\ names_ok e /\ k_tok k <> 46 /\ inWith e = false /\
  denotes e w false i y /\ y_name y = Some w /\ settles e c k (TOk c' k') /\ k_ptr k' = None /\ k_tok k' = tIDENT.
Proof. exact alias_refuted. Qed.
Print Assumptions C63_alias_refuted.
