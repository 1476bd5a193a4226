(** Proofs about Suggestions.v. *)
From Coq Require Import String ZArith List Bool Lia.
From Verif Require Import Base Source WLChar LongNames GenLongNames GenAscii ByteDecoder CharDecoder Format Decode SpecText SpecReader Iter TextProofs Logic LongNamesProofs WlDecode
  ReaderProofs TokSpecs FormatProofs FormatRound Link Tokenizer Suggestions SpecSuggestions.
Import ListNotations.
Local Open Scope string_scope.
Local Open Scope list_scope.
Local Open Scope Z_scope.

(** ** Escapes that are written for a character *)
Lemma graphical_visible : forall k a, visible a = true -> display_src_graphical (S k) a = Ok [a].
Proof.
  intros k a Ha. apply between_iff in Ha. cbn [display_src_graphical].
  assert (N : forall c, c < 0x20 \/ 0x7e < c -> (a =? c) = false) by (intros c Hc; apply Z.eqb_neq; lia).
  rewrite !(N _) by (unfold EndOfFile, CRLF, LinearSyntax_Space; lia).
  unfold zin. cbn [existsb]. rewrite !(N _) by (vm_compute; auto). cbn [orb].
  unfold between. destruct (Z.leb_spec 0 a); [|lia]. destruct (Z.leb_spec a 0x1f); [lia|].
  destruct (Z.leb_spec 0x80 a); [lia|]. unfold is_char. destruct (Z.leb_spec 0 a); [|lia].
  destruct (Z.ltb_spec 0x7f a); [lia|]. destruct (Z.ltb_spec 0xffff a); [lia|]. destruct (Z.ltb_spec 0xff a); [lia|].
  cbn [andb negb orb]. unfold encodeBytes, is_char. destruct (Z.leb_spec 0 a); [reflexivity|lia].
Qed.
Lemma graphical_map : forall k l, forallb visible l = true -> rconcat (map (display_src_graphical (S k)) l) = Ok l.
Proof.
  intros k l. induction l as [|a l IH]; intros H; [reflexivity|]. cbn [forallb] in H. apply andb_true_iff in H as [H1 H2].
  cbn [map rconcat]. rewrite graphical_visible, IH by auto. reflexivity.
Qed.

Definition names_known : bool := forallb (fun e => (fst e <=? 0x7f) || existsb (fun q => (snd q =? fst e) && (if list_eq_dec Z.eq_dec (fst q) (bytes_of_string (snd e)) then true else false)) LN_TABLE) CODEPOINT_TO_LONGNAME.
Lemma names_known_true : names_known = true.
Proof. vm_compute. reflexivity. Qed.
Lemma named_in : forall c n, 0x7f < c -> codepoint_to_longname c = Some n -> In (bytes_of_string n, c) LN_TABLE.
Proof.
  intros c n Hc H. unfold codepoint_to_longname in H. destruct (binary_search _ _ _) as [i|] eqn:E; [|discriminate].
  apply binary_search_some in E as [Hi E]. injection H as <-. apply Z.compare_eq in E.
  pose proof names_known_true as K. unfold names_known in K. rewrite forallb_forall in K. specialize (K _ (nth_In _ (0, EmptyString) Hi)).
  rewrite E in K. destruct (Z.leb_spec c 0x7f); [lia|]. cbn [orb] in K. apply existsb_exists in K as ([m p] & K1 & K2). cbn [fst snd] in K2.
  apply andb_true_iff in K2 as [K2 K3]. apply Z.eqb_eq in K2 as ->. destruct (list_eq_dec Z.eq_dec m _) as [E3|] in K3; [|discriminate]. rewrite E3 in K1. exact K1.
Qed.

(** the escape written for [c] *)
Definition escaped (c : Z) (u : list Z) : Prop :=
  forallb visible u = true /\ exists e, e <> ENone /\ forall r, escape_spec (u ++ r) (mkwl (in_a_string c) e) r.

Lemma escaped_hex : forall n (lead : Z) e c, (n = 2%nat /\ lead = 46 /\ e = EHex2) \/ (n = 4%nat /\ lead = 58 /\ e = EHex4) \/ (n = 6%nat /\ lead = 124 /\ e = EHex6) ->
  scalar c -> c <> 34 -> c <> 92 -> 0 <= c < 16 ^ Z.of_nat n -> in_a_string c = c -> escaped c (lead :: digits_of 16 n c) /\
  forall k, display_wl (display_src_graphical (S k)) (mkwl c e) = Ok (92 :: lead :: digits_of 16 n c).
Proof.
  intros n lead e c H Hs N1 N2 Hr Hi.
  destruct (digits_of_spec 16 is_hex_digit ltac:(lia) fromDigit_hex n c Hr) as (L & F & N).
  assert (M : meaning c = c) by (unfold meaning; destruct (Z.eqb_spec c 34); [contradiction|]; destruct (Z.eqb_spec c 92); [contradiction|reflexivity]).
  assert (V : numeric_value c = Some c) by (rewrite <- M at 1; apply numeric_meaning; lia).
  assert (Hv : forallb visible (digits_of 16 n c) = true) by (apply digits_of_visible; lia).
  split.
  - split; [destruct H as [(_ & -> & _)|[(_ & -> & _)|(_ & -> & _)]]; cbn [forallb]; rewrite Hv; reflexivity|].
    exists e. split; [destruct H as [(_ & _ & ->)|[(_ & _ & ->)|(_ & _ & ->)]]; discriminate|]. intros r. rewrite Hi.
    destruct H as [(-> & -> & ->)|[(-> & -> & ->)|(-> & -> & ->)]]; cbn [app].
    + pose proof (es_hex2 (digits_of 16 2 c) r (conj L F)) as E. rewrite N, M in E. exact E.
    + pose proof (es_hex4 (digits_of 16 4 c) r (conj L F)) as E. rewrite N, M in E. apply E. exact Hs.
    + pose proof (es_hex6 (digits_of 16 6 c) r (conj L F)) as E. rewrite N, M in E. apply E. exact Hs.
  - intros k. destruct H as [(-> & -> & ->)|[(-> & -> & ->)|(-> & -> & ->)]]; unfold display_wl; cbn [wc wesc]; rewrite V;
      match goal with |- rconcat (_ :: map _ ([?l] ++ ?d)) = _ => change (rconcat (map (display_src_graphical (S k)) (92 :: l :: d)) = Ok (92 :: l :: d)) end;
      apply graphical_map; cbn [forallb]; rewrite Hv; reflexivity.
Qed.

Lemma escaped_name : forall c n, 0x7f < c -> codepoint_to_longname c = Some n -> in_a_string c = c -> escaped c (91 :: bytes_of_string n ++ [93]) /\
  forall k, display_wl (display_src_graphical (S k)) (mkwl c ELongName) = Ok (92 :: 91 :: bytes_of_string n ++ [93]).
Proof.
  intros c n Hc H Hi. pose proof (codepoint_name_visible _ _ H) as Hv. split.
  - split; [cbn [forallb]; rewrite forallb_app, Hv; reflexivity|].
    pose proof (named_in _ _ Hc H) as HI. rewrite Hi. eexists. split; [|intros r; cbn [app]; rewrite <- app_assoc; cbn [app]; apply es_name; exact HI].
    destruct (in_dec _ _ _); discriminate.
  - intros k. unfold display_wl. cbn [wc wesc]. rewrite H. apply graphical_map. cbn [forallb]. rewrite forallb_app, Hv. reflexivity.
Qed.

Lemma controls_graphical : forallb (fun i => let c := Z.of_nat i in
    if zin c [8; 9; 10; 12; 13; 27] then true
    else match display_src_graphical 3 c with Ok t => if list_eq_dec Z.eq_dec t (92 :: 46 :: digits_of 16 2 c) then true else false | _ => false end) (seq 0 32) = true.
Proof. vm_compute. reflexivity. Qed.

Definition linear_syntax : list Z := [LS_BANG; LS_PERCENT; LS_AMP; LS_OPENPAREN; LS_CLOSEPAREN; LS_STAR; LS_PLUS; LS_SLASH; LS_AT; LS_CARET; LS_UNDER; LS_BACKTICK].
Definition pair_dec : forall a b : Z * Z, {a = b} + {a <> b}. decide equality; apply Z.eq_dec. Defined.
Lemma linear_graphical : forallb (fun c =>
    match single_char c with
    | Some [b] => if in_dec pair_dec (b, c) single_escapes then if visible b then
        match display_src_graphical 3 c with Ok t => if list_eq_dec Z.eq_dec t [92; b] then true else false | _ => false end else false else false
    | _ => false end) linear_syntax = true.
Proof. vm_compute. reflexivity. Qed.

Lemma graphical_escape : forall c, scalar c -> c < 0x20 \/ 0x7f <= c -> ~ In c [9; 10; 13] ->
  exists u, graphicalString (wl c) = Ok (92 :: u) /\ escaped c u.
Proof.
  intros c Hs Hr Hn. assert (H0 : 0 <= c) by (unfold scalar in Hs; lia).
  unfold graphicalString, wl, graphical_fuel. change (display_wl (display_src_graphical 3) (mkwl c ENone)) with (display_src_graphical 3 c).
  destruct (Z_lt_le_dec c 0x20) as [Hlo|Hhi].
  - destruct (Z.eq_dec c 8) as [-> |N8].
    { exists [98]. split; [reflexivity|]. split; [reflexivity|]. exists ESingle. split; [discriminate|]. intros r. apply (es_single 98). vm_compute. auto 10. }
    destruct (Z.eq_dec c 12) as [-> |N12].
    { exists [102]. split; [reflexivity|]. split; [reflexivity|]. exists ESingle. split; [discriminate|]. intros r. apply (es_single 102). vm_compute. auto 10. }
    destruct (Z.eq_dec c 27) as [-> |N27].
    { exists (91 :: bytes_of_string "RawEscape" ++ [93]). split; [vm_compute; reflexivity|]. split; [reflexivity|].
      eexists. split; [|intros r; cbn [app]; rewrite <- app_assoc; cbn [app]; apply es_name].
      - destruct (in_dec _ _ _); discriminate.
      - apply longname_to_codepoint_In. vm_compute. reflexivity. }
    assert (Hi : in_a_string c = c) by (unfold in_a_string; destruct (Z.eqb_spec c 8); [contradiction|]; destruct (Z.eqb_spec c 12); [contradiction|reflexivity]).
    exists (46 :: digits_of 16 2 c). split.
    + pose proof (proj1 (forallb_forall _ _) controls_graphical (Z.to_nat c)) as K. cbv beta zeta in K. rewrite Z2Nat.id in K by lia. specialize (K ltac:(apply in_seq; lia)).
      destruct (zin c [8; 9; 10; 12; 13; 27]) eqn:Ez.
      * unfold zin in Ez. apply existsb_exists in Ez as (x & Hx & Ex). apply Z.eqb_eq in Ex as <-. cbn [In] in Hx, Hn. intuition congruence.
      * destruct (display_src_graphical 3 c) as [t| |]; try discriminate K. destruct (list_eq_dec _ _ _) as [-> |] in K; [reflexivity|discriminate].
    + apply (escaped_hex 2 46 EHex2 c); auto; lia.
  - assert (Hc : 0x7f <= c) by lia. clear Hr Hhi.
    assert (Hi : in_a_string c = c) by (unfold in_a_string; destruct (Z.eqb_spec c 8); [lia|]; destruct (Z.eqb_spec c 12); [lia|reflexivity]).
    destruct (zin c linear_syntax) eqn:El.
    { unfold zin in El. apply existsb_exists in El as (x & Hx & Ex). apply Z.eqb_eq in Ex as <-.
      pose proof (proj1 (forallb_forall _ _) linear_graphical _ Hx) as K. cbv beta in K.
      destruct (single_char c) as [[|b [|]]|] eqn:Es; try discriminate K. destruct (in_dec pair_dec (b, c) single_escapes) as [Hin|] in K; [|discriminate].
      destruct (visible b) eqn:Hvb; [|discriminate].
      destruct (display_src_graphical 3 c) as [t| |]; try discriminate K. destruct (list_eq_dec _ _ _) as [-> |] in K; [|discriminate].
      exists [b]. split; [reflexivity|]. split; [cbn [forallb]; rewrite Hvb; reflexivity|]. exists ESingle. split; [discriminate|]. intros r. rewrite Hi. apply es_single, Hin. }
    assert (N : forall x, x < 0x7f -> (c =? x) = false) by (intros x Hx; apply Z.eqb_neq; lia).
    assert (G : display_src_graphical 3 c =
      if between 0 c 0x1f || (c =? 0x7f) || between 0x80 c 0x9f then display_wl (display_src_graphical 2) (mkwl c EHex2)
      else if (0x7f <? c) && (match codepoint_to_longname c with Some _ => true | None => false end) then display_wl (display_src_graphical 2) (mkwl c ELongName)
      else if 0xffff <? c then display_wl (display_src_graphical 2) (mkwl c EHex6)
      else if 0xff <? c then display_wl (display_src_graphical 2) (mkwl c EHex4) else display_wl (display_src_graphical 2) (mkwl c EHex2)).
    { assert (Hch : is_char c = true) by (unfold is_char; apply Z.leb_le; lia).
      assert (H7f : (0x7f <? c) = negb (c =? 0x7f)) by (destruct (Z.ltb_spec 0x7f c), (Z.eqb_spec c 0x7f); try reflexivity; lia).
      unfold linear_syntax in El. remember (S (S O)) as k eqn:Ek. cbn [display_src_graphical]. rewrite El.
      unfold zin. cbn [existsb]. rewrite !(N _) by (vm_compute; auto). cbn [orb]. rewrite Hch. cbn [negb].
      destruct (Z.eqb_spec c 0x7f) as [E7|N7]; [rewrite orb_true_r; reflexivity|]. rewrite H7f. cbn [negb]. destruct (_ || _); [reflexivity|].
      destruct (_ && _); [reflexivity|]. destruct (0xffff <? c); [reflexivity|]. destruct (0xff <? c); reflexivity. }
    rewrite G. destruct (between 0 c 0x1f || (c =? 0x7f) || between 0x80 c 0x9f) eqn:Eb.
    { assert (c <= 0x9f) by (unfold between in Eb; repeat rewrite ?orb_true_iff, ?andb_true_iff, ?Z.leb_le, ?Z.eqb_eq in Eb; lia).
      destruct (escaped_hex 2 46 EHex2 c) as [A B]; auto; try lia. eexists. split; [apply B|exact A]. }
    assert (Hc' : 0x7f < c) by (destruct (Z.eqb_spec c 0x7f) as [-> |]; [discriminate Eb|lia]).
    destruct (Z.ltb_spec 0x7f c) as [_|]; [|lia]. cbn [andb].
    destruct (codepoint_to_longname c) as [n|] eqn:En.
    { destruct (escaped_name c n Hc' En Hi) as [A B]. eexists. split; [apply B|exact A]. }
    assert (c < 0x110000) by (unfold scalar in Hs; lia).
    destruct (Z.ltb_spec 0xffff c).
    { destruct (escaped_hex 6 124 EHex6 c) as [A B]; auto; try lia. eexists. split; [apply B|exact A]. }
    destruct (Z.ltb_spec 0xff c).
    { destruct (escaped_hex 4 58 EHex4 c) as [A B]; auto; try lia. eexists. split; [apply B|exact A]. }
    destruct (escaped_hex 2 46 EHex2 c) as [A B]; auto; try lia. eexists. split; [apply B|exact A].
Qed.

(** ** What is read back *)
Lemma visible_ascii_b : forall u, forallb visible u = true -> Forall (fun b => 0 <= b < 0x80) u.
Proof. intros u H. apply visible_ascii in H. exact H. Qed.

Lemma spells_escaped : forall c u, escaped c u -> spells (92 :: u) (in_a_string c).
Proof.
  intros c u [Hv (e & He & Hs)]. split; [constructor; [lia|apply visible_ascii_b, Hv]|].
  intros o pol input s r Ht Hr Hp Er. cbn [app] in Er. apply (reachable_Inv o input s Ht) in Hr.
  destruct (read_escape o pol s (u ++ r) (mkwl (in_a_string c) e) r Hr Hp Er (Hs r)) as (s' & E1 & E2). exists e, s'. auto.
Qed.

Lemma spells_name : forall n p, longname_to_codepoint (lit n) = Some p -> forallb visible (lit n) = true -> spells (92 :: 91 :: lit n ++ [93]) p.
Proof.
  intros n p H Hv. split; [apply visible_ascii_b; cbn [forallb]; rewrite forallb_app, Hv; reflexivity|].
  intros o pol input s r Ht Hr Hp Er. apply (reachable_Inv o input s Ht) in Hr. apply longname_to_codepoint_In in H.
  pose proof (es_name (lit n) p r H) as E. cbn [app] in Er. rewrite <- app_assoc in Er. cbn [app] in Er.
  destruct (read_escape o pol s _ _ r Hr Hp Er E) as (s' & E1 & E2). eexists. exists s'. split; [|split; [exact E1|exact E2]]. destruct (in_dec _ _ _); discriminate.
Qed.

Lemma encode_plain : forall t, Forall (fun b => 0 <= b < 0x80) t -> encode t = t.
Proof. exact encode_ascii. Qed.
Lemma encode_one : forall p, encode [p] = utf8 p.
Proof. intros p. unfold encode. cbn [map concat]. apply app_nil_r. Qed.


Lemma certain_facts : forall c src, okr (safeAndGraphicalString c) -> exists l, certain_actions c src = Ok l /\
  Forall (fun a => ac_src a = src /\ suggestion (wc c) (as_meant_by (wesc c)) (ac_kind a)) l /\
  (forall p, In (wc c, p) meant -> exists t, as_meant_by (wesc c) t p /\ In (ReplaceText t) (map ac_kind l)).
Proof.
  intros [c e] src (s1 & E1). cbn [wc wesc].
  assert (T : forall p name (d : bool), okr (safeAndGraphicalString (wl p)) -> longname_to_codepoint (lit name) = Some p -> forallb visible (lit name) = true ->
    In (c, p) meant -> (d = true -> c = 0x2061) -> (forall q, In (c, q) meant -> q = p) ->
    exists l, rbind (safeAndGraphicalString (mkwl c e)) (fun s1 => rbind (safeAndGraphicalString (wl p)) (fun s2 =>
      Ok (replace_text (lit "Replace " ++ ticked s1 ++ lit " with " ++ ticked s2) src
            (match wesc (mkwl c e) with ENone => [p] | _ => 92 :: 91 :: lit name ++ [93] end)
          :: (if d then [delete_text (lit "Delete " ++ ticked s1) src] else [])))) = Ok l /\
      Forall (fun a => ac_src a = src /\ suggestion c (as_meant_by e) (ac_kind a)) l /\
      (forall q, In (c, q) meant -> exists t, as_meant_by e t q /\ In (ReplaceText t) (map ac_kind l))).
  { intros p name d (s2 & E2) Hn Hv Hm Hd Hu. rewrite E1, E2. cbn [rbind wesc]. eexists. split; [reflexivity|].
    assert (A : as_meant_by e (encode (match e with ENone => [p] | _ => 92 :: 91 :: lit name ++ [93] end)) p).
    { pose proof (spells_name name p Hn Hv) as S. destruct e; cbn [as_meant_by]; [exact (encode_one p)|..]; (rewrite encode_plain; [exact S|exact (proj1 S)]). }
    split.
    - constructor; [split; [reflexivity|right; right; exists p; split; [exact Hm|exact A]]|].
      destruct d; constructor; [|constructor]. split; [reflexivity|]. exact (Hd eq_refl).
    - intros q Hq. apply Hu in Hq as ->. eexists. split; [exact A|]. left. reflexivity. }
  unfold certain_actions, switchl. cbn [wc existsb].
  Ltac one T p n d := cbn [orb]; apply (T p n d); [eexists; vm_compute; reflexivity|vm_compute; reflexivity|reflexivity|vm_compute; tauto|try discriminate; auto|
    let q := fresh in let Hq := fresh in intros q Hq; vm_compute in Hq; repeat (destruct Hq as [Hq|Hq]; [first [discriminate Hq|injection Hq; intros <-; reflexivity]|]); contradiction].
  destruct (Z.eqb_spec c CP_LONGNAME_COMPATIBILITYNOBREAK) as [-> |N1]; [one T 0x2060 "NoBreak" false|].
  destruct (Z.eqb_spec c CP_LONGNAME_RIGHTARROW) as [-> |N2]; [one T 0xF522 "Rule" false|].
  destruct (Z.eqb_spec c 0x279D) as [-> |N3]; [one T 0xF522 "Rule" false|].
  destruct (Z.eqb_spec c 0x29F4) as [-> |N4]; [one T 0xF51F "RuleDelayed" false|].
  destruct (Z.eqb_spec c 0x2061) as [-> |N5]; [one T 0xF76D "InvisibleApplication" true|].
  destruct (Z.eqb_spec c 0x2063) as [-> |N6]; [one T 0xF765 "InvisibleComma" false|].
  destruct (Z.eqb_spec c 0x2064) as [-> |N7]; [one T 0xF39E "ImplicitPlus" false|].
  destruct (Z.eqb_spec c 0x200b) as [-> |N8]; [one T 0xF360 "InvisibleSpace" false|].
  cbn [orb]. exists []. split; [reflexivity|]. split; [constructor|]. intros p Hp. unfold CP_LONGNAME_COMPATIBILITYNOBREAK, CP_LONGNAME_RIGHTARROW in *.
  cbn [meant In] in Hp. intuition congruence.
Qed.

(** ** Plain characters that look like it *)
Lemma ascii_sorted : sorted_by (fun a b => fst a <? fst b) ASCII_REPLACEMENTS = true.
Proof. vm_compute. reflexivity. Qed.
Lemma ascii_plain : forallb (fun e => forallb (fun t => forallb (fun b => between 0 b 0x7f) t) (snd e)) ASCII_REPLACEMENTS = true.
Proof. vm_compute. reflexivity. Qed.
Lemma ascii_keys : forallb (fun e => 0 <=? fst e) ASCII_REPLACEMENTS = true.
Proof. vm_compute. reflexivity. Qed.
Lemma ascii_unique : forall c ts, In (c, ts) ASCII_REPLACEMENTS -> asciiReplacements c = ts.
Proof.
  intros c ts H. unfold asciiReplacements. pose proof (proj1 (forallb_forall _ _) ascii_keys _ H) as K. cbn [fst] in K. unfold is_char. rewrite K.
  destruct (binary_search _ _ _) as [i|] eqn:E.
  - apply binary_search_some in E as [Hi E]. apply Z.compare_eq in E. apply (In_nth _ _ (0, [])) in H as (j & Hj & Ej).
    destruct (Nat.lt_trichotomy i j) as [L|[-> |L]].
    + pose proof (sorted_nth _ (fun a b => fst a <? fst b) ltac:(intros ? ? ? X Y; apply Z.ltb_lt in X, Y; apply Z.ltb_lt; lia) _ (0, []) i j ascii_sorted ltac:(lia)) as S.
      cbv beta in S. rewrite Ej, E in S. cbn [fst] in S. rewrite Z.ltb_irrefl in S. discriminate.
    + rewrite Ej. reflexivity.
    + pose proof (sorted_nth _ (fun a b => fst a <? fst b) ltac:(intros ? ? ? X Y; apply Z.ltb_lt in X, Y; apply Z.ltb_lt; lia) _ (0, []) j i ascii_sorted ltac:(lia)) as S.
      cbv beta in S. rewrite Ej, E in S. cbn [fst] in S. rewrite Z.ltb_irrefl in S. discriminate.
  - exfalso. apply (binary_search_none _ _ _ (mono_Z _ fst _ _ c ascii_sorted) E _ H). cbn [fst]. apply Z.compare_refl.
Qed.
Lemma ascii_found : forall c t, In t (asciiReplacements c) -> looks_like c t.
Proof.
  intros c t H. unfold asciiReplacements in H. destruct (is_char c); [|contradiction]. destruct (binary_search _ _ _) as [i|] eqn:E; [|contradiction].
  apply binary_search_some in E as [Hi E]. apply Z.compare_eq in E. eexists. split; [|exact H]. rewrite <- E.
  pose proof (nth_In ASCII_REPLACEMENTS (0, []) Hi) as I. destruct (nth i ASCII_REPLACEMENTS (0, [])). exact I.
Qed.
Lemma looks_plain : forall c t, looks_like c t -> Forall (fun b => 0 <= b < 0x80) t.
Proof.
  intros c t (ts & H1 & H2). pose proof (proj1 (forallb_forall _ _) ascii_plain _ H1) as K. cbn [snd] in K.
  pose proof (proj1 (forallb_forall _ _) K _ H2) as K2. rewrite forallb_forall in K2. apply Forall_forall. intros b Hb. apply K2, between_iff in Hb. lia.
Qed.

Lemma ascii_facts : forall c src m,
  Forall (fun a => ac_src a = src /\ suggestion c m (ac_kind a)) (ascii_actions c src) /\
  (forall t, looks_like c t -> In (ReplaceText t) (map ac_kind (ascii_actions c src))).
Proof.
  intros c src m. split.
  - apply Forall_forall. intros a Ha. unfold ascii_actions in Ha. apply in_map_iff in Ha as (t & <- & Ht). split; [reflexivity|].
    apply ascii_found in Ht. pose proof (looks_plain _ _ Ht) as P. right. left. rewrite encode_plain by exact P. auto.
  - intros t Ht. pose proof (looks_plain _ _ Ht) as P. destruct Ht as (ts & H1 & H2). apply ascii_unique in H1. unfold ascii_actions. rewrite map_map.
    apply in_map_iff. exists t. rewrite H1. split; [|exact H2]. unfold replace_text. cbn [ac_kind]. rewrite encode_plain by exact P. reflexivity.
Qed.

(** ** Which characters are reported where *)
Section Source.
Variable o : opts.
Variable pol : policy.

Lemma bindE : forall A B (m : M A) (f : A -> M B) s r, bind m f s = Ok r -> exists a s1, m s = Ok (a, s1) /\ f a s1 = Ok r.
Proof. intros A B m f s r H. unfold bind in H. destruct (m s) as [[a s1]| |]; try discriminate. eauto. Qed.

Lemma unsafe_char_neg : forall e t u ch s c s', unsafeSequence o e t u ch s = Ok (c, s') -> c = ch.
Proof.
  intros e t u ch s c s' H. unfold unsafeSequence in H. repeat (apply bindE in H as (? & ? & _ & H)). injection H as <- _. reflexivity.
Qed.
Lemma validMB_char : forall d s c s', validMB o d pol s = Ok (c, s') -> c = d.
Proof. intros d s c s' H. unfold validMB in H. repeat (apply bindE in H as (? & ? & _ & H)). injection H as <- _. reflexivity. Qed.

Definition from_valid (m : M Z) : Prop := forall s c s', m s = Ok (c, s') -> 0 <= c ->
  exists s1, lg s1 = lg s /\ ploc (cur s1) = ploc (cur s) /\ validMB o c pol s1 = Ok (c, s').
Definition keeps {A} (m : M A) : Prop := forall s a s1, m s = Ok (a, s1) -> lg s1 = lg s /\ ploc (cur s1) = ploc (cur s).

Lemma fv_bind : forall A (m : M A) f, keeps m -> (forall a, from_valid (f a)) -> from_valid (bind m f).
Proof.
  intros A m f Hm Hf s c s' H Hc. apply bindE in H as (a & s1 & H1 & H2). apply Hm in H1 as [H1 H3]. destruct (Hf a _ _ _ H2 Hc) as (s2 & H4 & H5 & H6).
  exists s2. split; [congruence|]. split; [congruence|exact H6].
Qed.
Lemma fv_unsafe : forall e t u ch, ch < 0 -> from_valid (unsafeSequence o e t u ch).
Proof. intros e t u ch Hn s c s' H Hc. apply unsafe_char_neg in H. lia. Qed.
Lemma fv_valid : forall d, from_valid (validMB o d pol).
Proof. intros d s c s' H Hc. pose proof (validMB_char _ _ _ _ H) as ->. exists s. auto. Qed.
Lemma fv_if : forall (b : bool) m1 m2, from_valid m1 -> from_valid m2 -> from_valid (if b then m1 else m2).
Proof. intros [] ? ? H1 H2; assumption. Qed.
Lemma keeps_nextByte : keeps nextByte.
Proof. intros s a s1 H. unfold nextByte in H. destruct (rest (cur s)); injection H as <- <-; auto. Qed.
Lemma keeps_mark : keeps mark. Proof. intros s a s1 H. injection H as <- <-. auto. Qed.
Lemma keeps_weof : keeps get_weof. Proof. intros s a s1 H. injection H as <- <-. auto. Qed.
Lemma keeps_loc : keeps get_loc. Proof. intros s a s1 H. injection H as <- <-. auto. Qed.
Lemma keeps_u32 : forall v, keeps (unwrap_u32 v).
Proof. intros v s a s1 H. unfold unwrap_u32 in H. destruct (from_u32 v); [injection H as <- <-; auto|discriminate]. Qed.
Lemma fv_seek : forall m0 e t u ch, ch < 0 -> from_valid (bind (seek m0) (fun _ => unsafeSequence o e t u ch)).
Proof. intros m0 e t u ch Hn s c s' H Hc. apply bindE in H as (? & ? & _ & H). apply unsafe_char_neg in H. lia. Qed.

Ltac fv := repeat first [apply fv_if|apply fv_valid|apply fv_seek; reflexivity|apply fv_unsafe; reflexivity|
  apply fv_bind; [first [apply keeps_nextByte|apply keeps_mark|apply keeps_weof|apply keeps_loc|apply keeps_u32]|intro]].
Lemma fv_two : forall b, from_valid (two_byte o b pol). Proof. intros b. unfold two_byte, incomplete1. fv. Qed.
Lemma fv_three : forall b lo k, from_valid (three_byte o b lo k pol). Proof. intros b lo k. unfold three_byte, incomplete1, incomplete2, straySurrogate, bom. fv. Qed.
Lemma fv_four : forall b lo hi, from_valid (four_byte o b lo hi pol). Proof. intros b lo hi. unfold four_byte, incomplete1, incomplete2, incomplete3. fv. Qed.

(** a character that is not a control, tab or line end comes through [validMB]; a control through [validStrange] *)
Definition control (c : Z) : bool := between 0 c 8 || (c =? 11) || (c =? 12) || between 0x0e c 0x1f || (c =? 0x7f).
Lemma source_cases : forall s c s', Inv o s -> next_source_char o pol s = Ok (c, s') -> 0 <= c -> c <> 13 ->
  (between 0x20 c 0x7e || (c =? 9) || (c =? 10) = true /\ lg s' = lg s) \/
  exists s1, lg s1 = lg s /\ ploc (cur s1) = ploc (cur s) /\
    ((control c = true /\ validStrange o c pol s1 = Ok (c, s')) \/ 0x80 <= c /\ validMB o c pol s1 = Ok (c, s')).
Proof.
  intros s c s' HI H Hc Hn.
  assert (HA : c < 0x80 -> exists r, rest (cur s) = c :: r).
  { intros L. destruct (next_source_char_ok o pol s HI) as (s1 & E & _). rewrite E in H. injection H as <- _. apply decode_ascii_hd; [reflexivity|lia]. }
  unfold next_source_char in H. apply bindE in H as (first & s0 & H0 & H).
  assert (E0 : s0 = s) by (unfold currentByte in H0; destruct (rest (cur s)); injection H0 as <- <-; reflexivity). subst s0.
  destruct (between 0x20 first 0x7e) eqn:Eb.
  { left. apply bindE in H as (? & s1 & H1 & H). apply keeps_nextByte in H1 as [H1 _]. apply bindE in H as ([] & s2 & H2 & H). injection H as <- <-.
    rewrite Eb. split; [reflexivity|]. unfold src_increment, get_loc, set_loc, bind in H2. injection H2 as <-. exact H1. }
  destruct (Z.eqb_spec first 0x0a) as [-> |N10].
  { left. apply bindE in H as (? & s1 & H1 & H). apply keeps_nextByte in H1 as [H1 _]. apply bindE in H as ([] & s2 & H2 & H). injection H as <- <-.
    split; [reflexivity|]. unfold src_newline, get_loc, set_loc, bind in H2. injection H2 as <-. exact H1. }
  unfold nextSourceCharacter_uncommon in H. apply bindE in H as (b & s1 & H1 & H). pose proof (keeps_nextByte _ _ _ H1) as [L1 P1].
  destruct (Z.eqb_spec b 9) as [-> |N9].
  { left. apply bindE in H as ([] & s2 & H2 & H). injection H as <- <-. split; [reflexivity|].
    unfold src_tab in H2. apply bindE in H2 as (l & s3 & H3 & H2). injection H3 as _ <-. apply bindE in H2 as (l' & s4 & H4 & H2).
    unfold lift in H4. destruct (loc_tab (o_tab_width o) l); try discriminate H4. injection H4 as _ <-. injection H2 as <-. exact L1. }
  destruct (Z.eqb_spec b 13) as [-> |N13].
  { exfalso. apply bindE in H as (b2 & s2 & _ & H). destruct (b2 =? 10).
    - apply bindE in H as (? & ? & _ & H). apply bindE in H as (? & ? & _ & H). injection H as <- _. unfold CRLF in Hc. lia.
    - apply bindE in H as (? & ? & _ & H). apply bindE in H as (? & ? & _ & H). injection H as <- _. contradiction. }
  right.
  destruct (between 0 b 8 || (b =? 11) || (b =? 12) || between 0x0e b 0x1f || (b =? 0x7f)) eqn:Ec.
  { assert (c = b) as -> by (unfold validStrange in H; repeat (apply bindE in H as (? & ? & _ & H)); injection H as <- _; reflexivity).
    exists s1. split; [exact L1|]. split; [exact P1|]. left. split; [exact Ec|exact H]. }
  assert (F : from_valid (if between 0xc2 b 0xdf then two_byte o b pol
    else if b =? 0xe0 then three_byte o b 0xa0 false pol
    else if between 0xe1 b 0xef then three_byte o b 0x80 true pol
    else if b =? 0xf0 then four_byte o b 0x90 0xbf pol
    else if between 0xf1 b 0xf3 then four_byte o b 0x80 0xbf pol
    else if b =? 0xf4 then four_byte o b 0x80 0x8f pol
    else if b =? 0xff then bind get_weof (fun eof => if eof then ret EndOfFile else bind get_loc (fun l => incomplete1 o l))
    else bind get_loc (fun l => incomplete1 o l))).
  { repeat first [apply fv_if|apply fv_two|apply fv_three|apply fv_four]; unfold incomplete1; fv.
    intros q d q' Hq Hd. injection Hq as <- _. unfold EndOfFile in Hd. lia. }
  destruct (F _ _ _ H Hc) as (s2 & L2 & P2 & V). exists s2. split; [congruence|]. split; [congruence|]. right. split; [|exact V].
  destruct (Z_lt_le_dec c 0x80) as [L|L]; [|exact L]. exfalso. destruct (HA L) as (r & Er).
  unfold currentByte in H0. rewrite Er in H0. injection H0 as <-. unfold nextByte in H1. rewrite Er in H1. injection H1 as <- _.
  unfold between in Eb, Ec. repeat rewrite ?orb_false_iff, ?andb_false_iff, ?Z.leb_gt, ?Z.eqb_neq in Ec. rewrite ?andb_false_iff, ?Z.leb_gt in Eb. lia.
Qed.
End Source.

Lemma unexpected_eq : forall c, 0 <= c -> unexpected c = control c || isMBStrange c.
Proof.
  intros c Hc. apply Bool.eq_iff_eq_true. unfold unexpected, control, isMBStrange, is_ascii, zin, between.
  unfold CP_LONGNAME_OPENCURLYQUOTE, CP_LONGNAME_CLOSECURLYQUOTE, CP_LONGNAME_OPENCURLYDOUBLEQUOTE, CP_LONGNAME_CLOSECURLYDOUBLEQUOTE, CP_LONGNAME_RIGHTARROW, CP_LONGNAME_COMPATIBILITYNOBREAK, CP_LONGNAME_INVISIBLEAPPLICATION.
  destruct (Z.leb_spec 0 c) as [_|]; [|lia]. cbn [existsb andb].
  destruct (Z.leb_spec c 0x7f).
  - rewrite !orb_true_iff, !andb_true_iff, negb_true_iff, !orb_false_iff, !Z.leb_le, !Z.ltb_lt, !Z.eqb_neq, !Z.eqb_eq. lia.
  - match goal with |- context [if existsb ?f ?l then _ else _] => idtac | |- context [if ?b then _ else _] => destruct b eqn:E1 end.
    + rewrite !orb_true_iff, !Z.eqb_eq in E1. rewrite !orb_true_iff, !andb_true_iff, !Z.leb_le, !Z.eqb_eq. split; intros _; [right; reflexivity|]. left; left; right. intuition auto.
    + rewrite !orb_false_iff, !Z.eqb_neq in E1. destruct ((0x80 <=? c) && (c <=? 0x9f)) eqn:E2.
      * apply andb_true_iff in E2 as [E2 E3]. apply Z.leb_le in E2, E3. split; intros _; [apply orb_true_r|]. rewrite !orb_true_iff, !andb_true_iff, !Z.leb_le. lia.
      * apply andb_false_iff in E2. rewrite !Z.leb_gt in E2. destruct (Z.leb_spec c 0xffff).
        -- rewrite !orb_true_iff, !andb_true_iff, negb_true_iff, !orb_false_iff, !Z.leb_le, !Z.ltb_lt, !Z.eqb_eq. intuition lia.
        -- rewrite !orb_true_iff, !andb_true_iff, negb_true_iff, !orb_false_iff, !Z.leb_le, !Z.ltb_lt, !Z.eqb_eq. intuition lia.
Qed.

Lemma mb_white : forall c, isMBStrangeWhitespace c = true -> 0x80 <= c /\ (isMBStrange c = true -> c = 0xf3a2).
Proof.
  intros c H. unfold isMBStrangeWhitespace, isMBWhitespace, ln_isMBWhitespace in H.
  destruct (Z.eqb_spec c CP_LONGNAME_COMPATIBILITYNOBREAK) as [E|N]; [rewrite E; split; [discriminate|reflexivity]|]. cbn [orb] in H. apply andb_true_iff in H as [_ H].
  assert (In c MB_WHITESPACE) as I by (apply table_mem_In; [apply MB_tables_sorted|exact H]).
  assert (K : forallb (fun c => if isMBStrange c then false else 0x80 <=? c) MB_WHITESPACE = true) by (vm_compute; reflexivity).
  pose proof (proj1 (forallb_forall _ _) K _ I) as X. cbv beta in X. destruct (isMBStrange c); [discriminate|]. apply Z.leb_le in X. split; [exact X|discriminate].
Qed.
Lemma blank_eq : forall c, 0 <= c -> unexpected c = true -> isStrangeWhitespace c || isMBStrangeWhitespace c = existsb (Z.eqb c) [11; 12; 0xf3a2].
Proof.
  intros c Hc Hu. unfold isStrangeWhitespace, zin. cbn [existsb].
  destruct (Z.eqb_spec c 11); [reflexivity|]. destruct (Z.eqb_spec c 12); [reflexivity|]. cbn [orb].
  destruct (Z.eqb_spec c 0xf3a2) as [-> |N]; [reflexivity|]. destruct (isMBStrangeWhitespace c) eqn:E; [|reflexivity]. apply mb_white in E as [E1 E2].
  rewrite unexpected_eq in Hu by exact Hc. apply orb_true_iff in Hu as [Hu|Hu]; [|apply E2 in Hu; contradiction].
  unfold control, between in Hu. repeat rewrite ?orb_true_iff, ?andb_true_iff, ?Z.leb_le, ?Z.eqb_eq in Hu. lia.
Qed.

Definition note (r : option (issue_tag * severity)) (sp : span) (g : logs) : logs :=
  match r with Some (t, v) => addIssue_log (mkissue t v sp) g | None => g end.

Lemma strange_log : forall c a pol s s', loc_leb a (ploc (cur s)) = Some true -> strangeWarning c a pol s = Ok (tt, s') ->
  cur s' = cur s /\ lg s' = note (if p_string pol then Some (UnexpectedCharacter, Remark)
                     else if isStrangeWhitespace c || isMBStrangeWhitespace c then None else Some (UnexpectedCharacter, Warning)) (mkspan a (ploc (cur s))) (lg s).
Proof.
  intros c a pol s s' Hl H. unfold strangeWarning, report, get_loc, lift, bind, Span_new, addIssue, modlog, ret in H. rewrite Hl in H.
  destruct (p_string pol); [injection H as <-; auto|]. destruct (_ || _); injection H as <-; auto.
Qed.

Section Log.
Variable o : opts.
Variable pol : policy.
Hypothesis Hi : o_check_issues o = true.

Lemma validStrange_log : forall c s s', locok o (ploc (cur s)) -> control c = true -> validStrange o c pol s = Ok (c, s') ->
  ploc (cur s') = loc_next (ploc (cur s)) /\ lg s' = note (reported_as (o_normal o) (p_string pol) c) (mkspan (ploc (cur s)) (loc_next (ploc (cur s)))) (lg s).
Proof.
  intros c [[r w l] g] s' Hl Hc H. unfold validStrange in H. apply bindE in H as ([] & s1 & H1 & H).
  unfold src_increment, get_loc, set_loc, bind, loc_increment in H1. cbn [cur rest weof ploc lg] in *. injection H1 as <-.
  unfold when_ in H. rewrite Hi in H. apply bindE in H as ([] & s2 & H2 & H). injection H as <-.
  apply bindE in H2 as (l1 & s1 & H1 & H2). injection H1 as <- <-. cbn [cur ploc] in H2. apply bindE in H2 as (l2 & s1 & H1 & H2).
  unfold lift in H1. rewrite (loc_previous_next o) in H1 by exact Hl. injection H1 as <- <-.
  apply strange_log in H2 as [C L]; [|apply loc_leb_next]. cbn [cur ploc lg] in *. rewrite C, L. cbn [ploc]. split; [reflexivity|]. f_equal.
  unfold reported_as. assert (C0 : 0 <= c <= 0x7f) by (unfold control, between in Hc; repeat rewrite ?orb_true_iff, ?andb_true_iff, ?Z.leb_le, ?Z.eqb_eq in Hc; lia).
  assert (Hu : unexpected c = true) by (rewrite unexpected_eq, Hc by lia; reflexivity).
  rewrite Hu, blank_eq by (auto; lia). reflexivity.
Qed.

Lemma validMB_log : forall c s s', locok o (ploc (cur s)) -> 0x80 <= c -> validMB o c pol s = Ok (c, s') ->
  ploc (cur s') = loc_next (ploc (cur s)) /\ lg s' = note (reported_as (o_normal o) (p_string pol) c) (mkspan (ploc (cur s)) (loc_next (ploc (cur s)))) (lg s).
Proof.
  intros c [[r w l] g] s' Hl Hc H. unfold validMB in H. apply bindE in H as ([] & s1 & H1 & H).
  unfold src_increment, get_loc, set_loc, bind, loc_increment in H1. cbn [cur rest weof ploc lg] in *. injection H1 as <-.
  unfold when_ at 1 in H. rewrite Hi in H. apply bindE in H as ([] & s2 & H2 & H). injection H as <-.
  apply bindE in H2 as (l1 & s1 & H1 & H2). injection H1 as <- <-. cbn [cur ploc] in H2. apply bindE in H2 as (l2 & s1 & H1 & H2).
  unfold lift in H1. rewrite (loc_previous_next o) in H1 by exact Hl. injection H1 as <- <-.
  assert (Nc : control c = false).
  { unfold control, between. destruct (Z.leb_spec c 8); [lia|]. destruct (Z.leb_spec c 0x1f); [lia|]. rewrite !andb_false_r.
    destruct (Z.eqb_spec c 11); [lia|]. destruct (Z.eqb_spec c 12); [lia|]. destruct (Z.eqb_spec c 0x7f); [lia|]. reflexivity. }
  unfold reported_as. rewrite unexpected_eq, Nc by lia. cbn [orb].
  destruct (isMBStrange c) eqn:Es.
  - apply strange_log in H2 as [C L]; [|apply loc_leb_next]. cbn [cur ploc lg] in *. rewrite C, L. cbn [ploc]. split; [reflexivity|]. f_equal.
    rewrite blank_eq; [reflexivity|lia|]. rewrite unexpected_eq, Es, orb_true_r by lia. reflexivity.
  - destruct (Z.leb_spec 0x80 c) as [_|]; [|lia]. cbn [andb]. unfold when_ in H2. destruct (o_normal o).
    + unfold nonASCIIWarning, report, get_loc, lift, bind, Span_new, addIssue, modlog in H2. cbn [cur ploc] in H2. rewrite loc_leb_next in H2. injection H2 as <-. auto.
    + injection H2 as <-. auto.
Qed.

Lemma validMB_high : forall c s s', Inv o s -> next_source_char o pol s = Ok (c, s') -> 0 <= c -> scalar c.
Proof.
  intros c s s' HI H Hc. destruct (next_source_char_ok o pol s HI) as (s1 & E & _). rewrite E in H. injection H as <- _.
  pose proof (decode_point (rest (cur s))) as P. apply point_ok_cases in P as [P|P]; [exact P|].
  assert (K : forallb (fun p => p <? 0) special_chars = true) by (vm_compute; reflexivity).
  pose proof (proj1 (forallb_forall _ _) K _ P) as X. apply Z.ltb_lt in X. lia.
Qed.
End Log.

(** ** The issues whole *)
Lemma unexpected_range : forall c, 0 <= c -> unexpected c = true -> (c < 0x20 \/ 0x7f <= c) /\ ~ In c [9; 10; 13].
Proof.
  intros c Hc Hu. unfold unexpected in Hu. cbn [existsb In] in *.
  repeat rewrite ?orb_true_iff, ?andb_true_iff, ?negb_true_iff, ?orb_false_iff, ?Z.leb_le, ?Z.ltb_lt, ?Z.eqb_neq, ?Z.eqb_eq in Hu. lia.
Qed.
Lemma raw_ok : forall c, scalar c -> okr (safeAndGraphicalString (wl c)).
Proof. intros c H. apply safe_ok; [exact I|]. cbn [wc wl]. unfold is_char. apply Z.leb_le. unfold scalar in H. lia. Qed.

Lemma suggestion_spelling : forall c m u, escaped c u -> suggestion c m (ReplaceText (encode (92 :: u))).
Proof. intros c m u H. apply spells_escaped in H. left. rewrite encode_plain; [exact H|exact (proj1 H)]. Qed.

Lemma about_of : forall c m tag sev sp w certain u, escaped c u ->
  wi_tag w = tag -> wi_sev w = sev -> wi_src w = SSpan sp ->
  (exists label, wi_actions w = certain ++ replace_text label sp (92 :: u) :: ascii_actions c sp) ->
  Forall (fun a => ac_src a = sp /\ suggestion c m (ac_kind a)) certain ->
  (forall p, In (c, p) meant -> exists t, m t p /\ In (ReplaceText t) (map ac_kind certain)) ->
  issue_about c m tag sev sp w /\ offers_plain c w /\ offers_spelling c w.
Proof.
  intros c m tag sev sp w certain u Hu H1 H2 H3 (label & H4) H5 H6. destruct (ascii_facts c sp m) as [A1 A2]. split; [|split].
  - split; [exact H1|]. split; [exact H2|]. split; [exact H3|]. split.
    + rewrite H4. apply Forall_app. split; [exact H5|]. constructor; [|exact A1]. split; [reflexivity|]. apply suggestion_spelling, Hu.
    + intros p Hp. destruct (H6 p Hp) as (t & T1 & T2). exists t. split; [exact T1|]. rewrite H4, map_app. apply in_or_app. left. exact T2.
  - intros t Ht. rewrite H4, map_app. apply in_or_app. right. right. exact (A2 t Ht).
  - exists (92 :: u). pose proof (spells_escaped _ _ Hu) as S. split; [exact S|]. rewrite H4, map_app. apply in_or_app. right. left.
    cbn [replace_text ac_kind]. rewrite encode_plain; [reflexivity|exact (proj1 S)].
Qed.

Lemma strange_facts : forall c a b pol, scalar c -> unexpected c = true -> loc_leb a b = Some true ->
  if p_string pol || negb (existsb (Z.eqb c) [11; 12; 0xf3a2]) then
    exists w, strange_issue c a b pol = Ok (Some w) /\
      issue_about c as_itself UnexpectedCharacter (if p_string pol then Remark else Warning) (mkspan a b) w /\ offers_plain c w /\ offers_spelling c w
  else strange_issue c a b pol = Ok None.
Proof.
  intros c a b pol Hs Hu Hl. assert (H0 : 0 <= c) by (unfold scalar in Hs; lia). destruct (unexpected_range c H0 Hu) as [R1 R2].
  destruct (graphical_escape c Hs R1 R2) as (u & Eg & Hue). pose proof (raw_ok c Hs) as Hok. destruct Hok as (safe & Es).
  destruct (certain_facts (wl c) (mkspan a b) (raw_ok c Hs)) as (certain & Ec & F1 & F2). cbn [wc wesc wl as_meant_by] in F1, F2.
  unfold strange_issue. rewrite Es, Eg. cbn [rbind]. unfold Span_new. rewrite Hl. cbn [rbind]. rewrite Ec. cbn [rbind]. rewrite (blank_eq c H0 Hu).
  destruct (p_string pol); cbn [orb].
  - eexists. split; [reflexivity|]. eapply about_of; try reflexivity; eauto. eexists. reflexivity.
  - destruct (existsb _ _); cbn [negb]; [reflexivity|]. eexists. split; [reflexivity|]. eapply about_of; try reflexivity; eauto. eexists. reflexivity.
Qed.

Lemma nonascii_facts : forall c a b, scalar c -> 0x80 <= c -> unexpected c = false -> loc_leb a b = Some true ->
  exists w, nonascii_issue c a b = Ok w /\ issue_about c as_itself NonASCIICharacter Remark (mkspan a b) w /\ offers_plain c w /\ offers_spelling c w.
Proof.
  intros c a b Hs Hc Hu Hl. destruct (graphical_escape c Hs) as (u & Eg & Hue); [lia|cbn [In]; lia|]. destruct (raw_ok c Hs) as (safe & Es).
  unfold nonascii_issue. rewrite Es, Eg. cbn [rbind]. unfold Span_new. rewrite Hl. cbn [rbind]. eexists. split; [reflexivity|].
  apply (about_of c as_itself NonASCIICharacter Remark (mkspan a b) _ [] u); try reflexivity; auto; [eexists; reflexivity|].
  intros p Hp. exfalso. assert (K : forallb (fun e => unexpected (fst e)) meant = true) by (vm_compute; reflexivity).
  pose proof (proj1 (forallb_forall _ _) K _ Hp) as X. cbn [fst] in X. congruence.
Qed.

Lemma character_reported : forall o pol s c s', Inv o s -> o_check_issues o = true -> next_source_char o pol s = Ok (c, s') -> 0 <= c -> c <> 13 ->
  match reported_as (o_normal o) (p_string pol) c with
  | None => lg s' = lg s
  | Some (tag, sev) =>
      let sp := mkspan (ploc (cur s)) (ploc (cur s')) in
      lg s' = addIssue_log (mkissue tag sev sp) (lg s) /\
      exists w, (if unexpected c then strange_issue c (ploc (cur s)) (ploc (cur s')) pol = Ok (Some w) else nonascii_issue c (ploc (cur s)) (ploc (cur s')) = Ok w) /\
        issue_about c as_itself tag sev sp w /\ offers_plain c w /\ offers_spelling c w
  end.
Proof.
  intros o pol s c s' HI Hi H Hc Hn. pose proof (validMB_high o pol c s s' HI H Hc) as Hs.
  pose proof HI as (_ & _ & Hl).
  assert (X : unexpected c = true \/ 0x80 <= c -> ploc (cur s') = loc_next (ploc (cur s)) /\
    lg s' = note (reported_as (o_normal o) (p_string pol) c) (mkspan (ploc (cur s)) (loc_next (ploc (cur s)))) (lg s)).
  { intros Hx. destruct (source_cases o pol s c s' HI H Hc Hn) as [[B L]|(s1 & L1 & P1 & [[C V]|[C V]])].
    - exfalso. destruct Hx as [Hx|Hx].
      + destruct (unexpected_range c Hc Hx) as [R1 R2]. cbn [In] in R2. unfold between in B. repeat rewrite ?orb_true_iff, ?andb_true_iff, ?Z.leb_le, ?Z.eqb_eq in B. lia.
      + unfold between in B. repeat rewrite ?orb_true_iff, ?andb_true_iff, ?Z.leb_le, ?Z.eqb_eq in B. lia.
    - apply validStrange_log in V; auto; [|rewrite P1; exact Hl]. rewrite L1, P1 in V. exact V.
    - apply validMB_log in V; auto; [|rewrite P1; exact Hl]. rewrite L1, P1 in V. exact V. }
  unfold reported_as in *. destruct (unexpected c) eqn:Eu.
  - destruct (X (or_introl eq_refl)) as [P L]. rewrite P. pose proof (strange_facts c (ploc (cur s)) (loc_next (ploc (cur s))) pol Hs Eu (loc_leb_next _)) as F.
    destruct (p_string pol); cbn [orb] in F; [split; [exact L|exact F]|]. destruct (existsb _ _); cbn [negb] in F; [exact L|]. split; [exact L|exact F].
  - destruct (Z.leb_spec 0x80 c) as [Hh|Hh]; cbn [andb] in *.
    + destruct (X (or_intror Hh)) as [P L]. destruct (o_normal o); [|exact L]. rewrite P. split; [exact L|]. apply nonascii_facts; auto. apply loc_leb_next.
    + destruct (source_cases o pol s c s' HI H Hc Hn) as [[B L]|(s1 & L1 & P1 & [[C V]|[C V]])]; [exact L| |lia].
      exfalso. rewrite unexpected_eq, C in Eu by exact Hc. discriminate Eu.
Qed.
