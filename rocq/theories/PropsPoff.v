(** The object file library: C46 - C49. *)

From Coq Require Import ZArith Bool List.
From Verif Require Import Words PoffModel PoffSpec PoffLine PoffSwap PoffMain.
Import ListNotations.
Open Scope Z_scope.

(** C46: on a big-endian host *)
Theorem C46_round_trip : forall p, container_ok p ->
  exists file q, write_file false p = Some file /\ read_file false file = ROk q /\ same_object p q.
Proof. intros p Ok. exact (container_round_trip false p Ok (fun H => False_ind _ (Bool.diff_false_true H))). Qed.
Print Assumptions C46_round_trip.

Example C46_round_trip_nonvacuous : container_ok (sample true [1; 5; 9] [0; 0; 0; 4; 0; 0; 0; 2; 0; 0; 0; 0]).
Proof. apply sample_ok; [vm_compute; repeat constructor|vm_compute; repeat constructor|]. repeat constructor; vm_compute; congruence. Qed.

(** C46: on a little-endian host, with at most one file name and without debug
    information *)
Theorem C46_little_endian_partial : forall p, container_ok p -> swappable p ->
  exists file q, write_file true p = Some file /\ read_file true file = ROk q /\ same_object p q.
Proof. intros p Ok Sw. exact (container_round_trip true p Ok (fun _ => Sw)). Qed.
Print Assumptions C46_little_endian_partial.

Example C46_little_endian_nonvacuous : container_ok (sample false [1] []) /\ swappable (sample false [1] []).
Proof. split; [apply sample_ok; [vm_compute; repeat constructor|vm_compute; repeat constructor|constructor]|]. split; [vm_compute; repeat constructor|reflexivity]. Qed.

(** C46 fails on a little-endian host: with two file names the file cannot be
    read back (the table is swapped out of its buffer) *)
Theorem C46_files_refuted : exists p file, container_ok p /\ data p KDbg = [] /\
  write_file true p = Some file /\ read_file true file = RUB.
Proof.
  exists (sample false [1; 5] []). eexists. split; [apply sample_ok; [vm_compute; repeat constructor|vm_compute; repeat constructor|constructor]|].
  split; [reflexivity|]. split; [vm_compute; reflexivity|vm_compute; reflexivity].
Qed.
Print Assumptions C46_files_refuted.

(** C46 fails on a little-endian host: a debug record with one parameter cannot
    be written (the swapped number of parameters is used) *)
Theorem C46_debug_refuted : exists p, container_ok p /\ (length (data p KFiles) <= 4)%nat /\ write_file true p = None.
Proof.
  exists (sample false [1] [4; 0; 0; 0; 2; 0; 0; 0; 1; 0; 0; 0; 2; 0; 0; 0]).
  split; [apply sample_ok; [vm_compute; repeat constructor|vm_compute; repeat constructor|repeat constructor; vm_compute; congruence]|].
  split; [vm_compute; repeat constructor|vm_compute; reflexivity].
Qed.
Print Assumptions C46_debug_refuted.

(** C47: a header field has the same bytes in the file whatever the host, and is
    read back on every host *)
Theorem C47_fields : forall sw sw' w v rest, w = 2%nat \/ w = 4%nat -> 0 <= v < 256 ^ Z.of_nat w ->
  put sw w v = field_bytes true w v /\ get sw' w (put sw w v ++ rest) = v.
Proof. intros sw sw' w v rest W Hv. exact (conj (put_big sw w v W Hv) (get_put sw sw' w v rest W Hv)). Qed.
Print Assumptions C47_fields.

(** C47: symbols, relocations and line numbers are swapped field by field, in
    both directions *)
Theorem C47_tables : forall k t from relsize flags addr alloc, is_table k -> Forall (entry_ok (layout k)) t ->
  swap_data true relsize k (mkSect flags (sh_entsize0 k) addr (table_bytes from (layout k) t) alloc) =
    Some (table_bytes (negb from) (layout k) t).
Proof. exact swap_table. Qed.
Print Assumptions C47_tables.

Example C47_tables_nonvacuous : is_table KSym /\ Forall (entry_ok (layout KSym)) [[1; 0; 0; 0; 5; 258; 0]; [2; 1; 0; 0; 4294967295; 1; 7]].
Proof. split; [left; reflexivity|]. repeat constructor; vm_compute; congruence. Qed.

(** C47: the same tables in two hosts give the same file, and each host reads it
    back, with at most one file name and without debug information *)
Theorem C47_portable_partial : forall T pl pb, container_ok pl -> container_ok pb -> swappable pl -> images T pl pb ->
  exists file ql qb, write_file true pl = Some file /\ write_file false pb = Some file /\
    read_file true file = ROk ql /\ same_object pl ql /\ read_file false file = ROk qb /\ same_object pb qb.
Proof. exact portable_both. Qed.
Print Assumptions C47_portable_partial.

Example C47_portable_nonvacuous : exists T, images T (sample false [1] []) (sample true [1] []).
Proof.
  exists (fun k => match k with KSym => [[1; 0; 0; 0; 5; 258; 0]] | KRel => [[4; 513]; [9; 257]] | KFiles => [[1]] | KLines => [[3; 0; 0]; [300; 0; 4]] | _ => [] end).
  do 4 (split; [reflexivity|]). split.
  - intros k [-> |[-> |[-> | ->]]]; reflexivity.
  - intros k [[-> |[-> | ->]]| ->]; (split; [repeat constructor; vm_compute; congruence|split; reflexivity]).
Qed.

(** C47 fails: of two file names only the first is swapped *)
Theorem C47_files_refuted : exists t, Forall (entry_ok (layout KFiles)) t /\
  swap_data true 0 KFiles (mkSect 0 (sh_entsize0 KFiles) 0 (table_bytes false (layout KFiles) t) 256) <>
    Some (table_bytes true (layout KFiles) t).
Proof. exists [[1]; [5]]. split; [repeat constructor; vm_compute; congruence|vm_compute; congruence]. Qed.
Print Assumptions C47_files_refuted.

(** C47 fails: debug records are not swapped in a file without relocations *)
Theorem C47_debug_refuted : exists d, length d = 12%nat /\ bytes d /\ swap_data true 0 KDbg (mkSect 0 12 0 d 256) = Some d /\
  d <> table_bytes true [4; 4; 4]%nat [[4; 2; 0]] /\ d = table_bytes false [4; 4; 4]%nat [[4; 2; 0]].
Proof.
  exists [4; 0; 0; 0; 2; 0; 0; 0; 0; 0; 0; 0]. split; [reflexivity|]. split; [repeat constructor; vm_compute; congruence|].
  split; [reflexivity|]. split; [vm_compute; congruence|reflexivity].
Qed.
Print Assumptions C47_debug_refuted.

(** C48: every string added is found at its index for ever after *)
Theorem C48_retrieved : forall ops1 ops2, Forall (fun s => text (added s)) (ops1 ++ ops2) ->
  exists tab1 is1 tab2 is2, additions [] ops1 = Some (tab1, is1) /\ additions tab1 ops2 = Some (tab2, is2) /\
    Forall2 (fun s i => string_at tab2 i (added s) /\ get_string tab2 i = Some (added s)) (ops1 ++ ops2) (is1 ++ is2) /\
    string_table tab2 /\ exists suffix, tab2 = tab1 ++ suffix.
Proof. exact strings_retrieved. Qed.
Print Assumptions C48_retrieved.

(** C48: the same string has the same index, different strings have different
    indices *)
Theorem C48_shared : forall ops tab is a b s t i j, Forall (fun s => text (added s)) ops -> additions [] ops = Some (tab, is) ->
  nth_error ops a = Some s -> nth_error ops b = Some t -> nth_error is a = Some i -> nth_error is b = Some j ->
  (i = j <-> added s = added t).
Proof. exact strings_shared. Qed.
Print Assumptions C48_shared.

Example C48_nonvacuous :
  Forall (fun s => text (added s)) [Some [97; 98]; None; Some [98]; Some [97; 98]; Some []] /\
  additions [] [Some [97; 98]; None; Some [98]; Some [97; 98]; Some []] = Some ([0; 97; 98; 0; 98; 0], [1; 0; 4; 1; 0]).
Proof. split; [repeat constructor; discriminate|reflexivity]. Qed.

(** C49: below the last entry the lookup is right, after any lookups *)
Theorem C49_lookup_partial : forall tab os offset x, ascending tab -> nth_error tab (length tab - 1) = Some x -> offset < x ->
  exists prev r prev', lookups tab 0 os = Some prev /\ find_line tab prev offset = Some (r, prev') /\ line_of tab offset r.
Proof. exact lookup_partial. Qed.
Print Assumptions C49_lookup_partial.

(** C49: in any case the lookup is defined, and it is right or gives the last
    entry but one instead of the last *)
Theorem C49_last_partial : forall tab os offset, ascending tab -> tab <> [] ->
  exists prev r prev', lookups tab 0 os = Some prev /\ find_line tab prev offset = Some (r, prev') /\
    (line_of tab offset r \/ (r = Some (length tab - 2)%nat /\ line_of tab offset (Some (length tab - 1)%nat))).
Proof. exact lookup_last. Qed.
Print Assumptions C49_last_partial.

Example C49_nonvacuous : ascending [0; 4; 4; 10; 12] /\ nth_error [0; 4; 4; 10; 12] 4 = Some 12 /\
  lookups [0; 4; 4; 10; 12] 0 [11; 3; 100] = Some 3%nat /\ find_line [0; 4; 4; 10; 12] 3 9 = Some (Some 2%nat, 2%nat).
Proof.
  split; [|repeat split; reflexivity]. intros [|[|[|[|[|i]]]]] [|[|[|[|[|j]]]]] x y L Ex Ey; cbn in Ex, Ey;
    try (destruct i; discriminate Ex); try (destruct j; discriminate Ey); try (exfalso; Lia.lia); injection Ex as <-; injection Ey as <-; Lia.lia.
Qed.

(** C49 fails: the address of the last line is attributed to the line before *)
Theorem C49_refuted : exists tab offset r prev, ascending tab /\ find_line tab 0 offset = Some (r, prev) /\ ~ line_of tab offset r.
Proof.
  exists [0; 10], 10, (Some 0%nat), 0%nat. split; [|split; [reflexivity|]].
  - intros [|[|i]] [|[|j]] x y L Ex Ey; cbn in Ex, Ey; try (destruct i; discriminate Ex); try (destruct j; discriminate Ey);
      try (exfalso; Lia.lia); injection Ex as <-; injection Ey as <-; Lia.lia.
  - intros (x & Ex & _ & H). cbn in Ex. injection Ex as <-. specialize (H 1%nat 10 eq_refl). Lia.lia.
Qed.
Print Assumptions C49_refuted.
