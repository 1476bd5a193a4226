(** C26, C27, C37, C38, C39: utilities and data types. *)
From Coq Require Import String ZArith List Bool.
From Verif Require Import Base Source Tokenizer Utils SpecMisc MiscProofs.
Import ListNotations.
Local Open Scope Z_scope.

(** ** C26 *)
Theorem C26_lossless : forall input,
  concat (map (fun p => fst p ++ snd p) (split_lines_keep_sep input)) = input.
Proof. exact split_lossless. Qed.
Print Assumptions C26_lossless.

Theorem C26_lines : forall input, input <> [] -> lines_of input (split_lines_keep_sep input).
Proof. exact split_lines_ok. Qed.
Print Assumptions C26_lines.

(** The specification leaves no choice. *)
Theorem C26_unique : forall t ls, lines_of t ls -> forall ls', lines_of t ls' -> ls = ls'.
Proof. exact lines_of_unique. Qed.
Print Assumptions C26_unique.

Example C26_case : split_lines_keep_sep [97; 13; 10; 13; 98; 10; 10; 99] =
  [([97], [13; 10]); ([], [13]); ([98], [10]); ([], [10]); ([99], [])].
Proof. reflexivity. Qed.

(** ** C27 *)
Theorem C27_grouped : forall T (P : T -> T -> bool) l,
  exists gs, split_by_pairs (fun a b => Ok (P a b)) l = Ok gs /\ grouped P l gs.
Proof. exact split_by_pairs_grouped. Qed.
Print Assumptions C27_grouped.

Theorem C27_unique : forall T (P : T -> T -> bool) l gs hs,
  grouped P l gs -> grouped P l hs -> gs = hs.
Proof. intros T P l gs hs. exact (grouped_unique T P (length l) l gs hs (le_n _)). Qed.
Print Assumptions C27_unique.

(** The case of utils.rs 554-568. *)
Example C27_case :
  split_by_pairs (fun a b => Ok (Z.abs (a - b) =? 1)) [1; 2; 4; 5; 4; 6; 7; 8; 11; 13; 15; 16] =
  Ok [[1; 2]; [4; 5; 4]; [6; 7; 8]; [11]; [13]; [15; 16]].
Proof. reflexivity. Qed.

(** ** C37 *)

(** The test is for the ends of the other span only.. *)
Theorem C37_overlaps : forall l1 c1 l2 c2 m1 d1 m2 d2,
  pos_le (l1, c1) (l2, c2) ->
  (lc_overlaps l1 c1 l2 c2 m1 d1 m2 d2 = true <->
   in_span (l1, c1) (l2, c2) (m1, d1) \/ in_span (l1, c1) (l2, c2) (m2, d2)).
Proof. exact lc_overlaps_iff. Qed.
Print Assumptions C37_overlaps.

(** ..so it misses a span that lies strictly inside the other one.. *)
Theorem C37_overlaps_refuted : exists l1 c1 l2 c2 m1 d1 m2 d2 p,
  pos_le (l1, c1) (l2, c2) /\ pos_le (m1, d1) (m2, d2) /\
  in_span (l1, c1) (l2, c2) p /\ in_span (m1, d1) (m2, d2) p /\
  lc_overlaps l1 c1 l2 c2 m1 d1 m2 d2 = false.
Proof.
  exists 1, 2, 1, 4, 1, 1, 1, 5, (1, 2).
  unfold in_span, pos_le; cbn; repeat split; auto; right; split; auto; discriminate.
Qed.
Print Assumptions C37_overlaps_refuted.

(** ..and testing in both directions is exact. *)
Theorem C37_overlaps_either : forall l1 c1 l2 c2 m1 d1 m2 d2,
  pos_le (l1, c1) (l2, c2) -> pos_le (m1, d1) (m2, d2) ->
  (lc_overlaps l1 c1 l2 c2 m1 d1 m2 d2 = true \/ lc_overlaps m1 d1 m2 d2 l1 c1 l2 c2 = true <->
   exists p, in_span (l1, c1) (l2, c2) p /\ in_span (m1, d1) (m2, d2) p).
Proof. exact lc_overlaps_either. Qed.
Print Assumptions C37_overlaps_either.

Theorem C37_contains : forall l1 c1 l2 c2 l c,
  pos_le (l1, c1) (l2, c2) ->
  (lc_contains l1 c1 l2 c2 l c = true <-> in_span (l1, c1) (l2, c2) (l, c)).
Proof. exact lc_contains_iff. Qed.
Print Assumptions C37_contains.

(** Character spans do overlap exactly when they share an index. *)
Theorem C37_char_intersects : forall a b c d, a <= b -> c <= d ->
  exists r, char_intersects (a, b) (c, d) = Ok r /\
    (r = true <-> exists p, a <= p <= b /\ c <= p <= d).
Proof. exact char_intersects_iff. Qed.
Print Assumptions C37_char_intersects.

Theorem C37_intersection : forall a b c d, a <= b -> c <= d ->
  exists r, intersection (a, b) (c, d) = Ok r /\
    forall p, (a <= p <= b /\ c <= p <= d) <->
              match r with Some (x, y) => x <= p <= y | None => False end.
Proof. exact intersection_ok. Qed.
Print Assumptions C37_intersection.

(** Merging two ordered spans covers both. *)
Theorem C37_between : forall a b,
  loc_leb (sp_start a) (sp_end a) = Some true -> loc_leb (sp_start b) (sp_end b) = Some true ->
  loc_leb (sp_start a) (sp_start b) = Some true -> loc_leb (sp_end a) (sp_end b) = Some true ->
  exists r, Span_between a b = Ok r /\ forall p,
    (loc_leb (sp_start a) p = Some true /\ loc_leb p (sp_end a) = Some true) \/
    (loc_leb (sp_start b) p = Some true /\ loc_leb p (sp_end b) = Some true) ->
    loc_leb (sp_start r) p = Some true /\ loc_leb p (sp_end r) = Some true.
Proof. exact span_between_covers. Qed.
Print Assumptions C37_between.

(** The cases documented at source.rs 884-896 and 835-843, and utils.rs 748-757. *)
Example C37_case :
  lc_overlaps 1 1 1 5 1 2 1 4 = true /\ lc_overlaps 1 1 1 5 1 4 1 8 = true /\
  lc_overlaps 1 1 2 5 2 4 3 8 = true /\ lc_overlaps 1 1 1 5 2 1 2 5 = false /\
  lc_contains 1 3 2 1 1 4 = true /\ lc_contains 1 3 2 1 2 4 = false /\
  intersection (3, 4) (1, 3) = Ok (Some (3, 3)) /\ intersection (1, 2) (3, 4) = Ok None /\
  Span_between (mkspan (LineCol 1 2) (LineCol 1 4)) (mkspan (LineCol 2 1) (LineCol 2 2)) =
    Ok (mkspan (LineCol 1 2) (LineCol 2 2)).
Proof. repeat split; reflexivity. Qed.

(** ** C38 *)
Theorem C38_first_line : forall v e, first_line_of_i32 v = Some e <-> v = first_line_code e.
Proof. exact first_line_codes. Qed.
Print Assumptions C38_first_line.
Theorem C38_encoding : forall v e, encoding_of_i32 v = Some e <-> v = encoding_code e.
Proof. exact encoding_codes. Qed.
Print Assumptions C38_encoding.
Theorem C38_stringify : forall v e, stringify_of_i32 v = Some e <-> v = stringify_code e.
Proof. exact stringify_codes. Qed.
Print Assumptions C38_stringify.
Theorem C38_convention : forall v e, convention_of_i32 v = Some e <-> v = convention_code e.
Proof. exact convention_codes. Qed.
Print Assumptions C38_convention.

(** Names: a string converts to a value exactly if it is that value's name. *)
Theorem C38_tag_names : forall s t, tag_from_str s = Some t <-> s = tag_as_str t.
Proof. split; [exact (tag_from_exact s t)|intros ->; exact (tag_roundtrip t)]. Qed.
Print Assumptions C38_tag_names.
Theorem C38_severity_names : forall s t, severity_from_str s = Some t <-> s = severity_as_str t.
Proof. split; [exact (severity_from_exact s t)|intros ->; exact (severity_roundtrip t)]. Qed.
Print Assumptions C38_severity_names.
Theorem C38_unsafe_names : forall s t, unsafe_from_str s = Some t <-> s = unsafe_as_str t.
Proof. split; [exact (unsafe_from_exact s t)|intros ->; exact (unsafe_roundtrip t)]. Qed.
Print Assumptions C38_unsafe_names.
Theorem C38_reason : forall v, from_missing_reason (missing_reason v) = Some v.
Proof. exact reason_roundtrip. Qed.
Print Assumptions C38_reason.

(** The reason strings are not decoded injectively: the prefix may be repeated. *)
Theorem C38_reason_refuted : exists s v, from_missing_reason s = Some v /\ s <> missing_reason v.
Proof.
  exists "UnsafeCharacterEncoding_UnsafeCharacterEncoding_BOM"%string, BOM.
  split; [vm_compute; reflexivity|discriminate].
Qed.
Print Assumptions C38_reason_refuted.

Example C38_case : first_line_of_i32 2 = Some Script /\ first_line_of_i32 3 = None /\
  first_line_of_i32 (-1) = None /\ convention_of_i32 1 = Some ConvCharacterIndex /\
  tag_from_str "BOM" = Some BOMTag /\ tag_from_str "Bom" = None.
Proof. repeat split; reflexivity. Qed.

(** ** C39 *)
Theorem C39_antisymmetry_refuted : ~ antisymmetric issue_cmp.
Proof.
  intros H. specialize (H (SrcSpan (mkspan (LineCol 1 1) (LineCol 1 2)), Ambiguous)
                          (SrcSpan (mkspan (LineCol 1 5) (LineCol 1 6)), BOMTag)).
  vm_compute in H. discriminate H.
Qed.
Print Assumptions C39_antisymmetry_refuted.

Theorem C39_transitivity_refuted : ~ transitive_lt issue_cmp.
Proof.
  intros H. specialize (H (SrcSpan (mkspan (LineCol 1 5) (LineCol 1 6)), UnexpectedCharacter)
                          (SrcSpan (mkspan (LineCol 1 1) (LineCol 1 2)), Ambiguous)
                          (SrcSpan (mkspan (LineCol 1 3) (LineCol 1 4)), UnexpectedCharacter)
                          eq_refl eq_refl).
  vm_compute in H. discriminate H.
Qed.
Print Assumptions C39_transitivity_refuted.

(** Exactly when the two directions of a comparison agree. *)
Theorem C39_agree : forall a b,
  issue_cmp b a = CompOpp (issue_cmp a b) <->
  match source_cmp (fst a) (fst b) with
  | Some Lt => tag_rank (snd b) < tag_rank (snd a)
  | Some Gt => tag_rank (snd a) < tag_rank (snd b)
  | _ => True
  end.
Proof. exact issue_cmp_lawful_iff. Qed.
Print Assumptions C39_agree.
