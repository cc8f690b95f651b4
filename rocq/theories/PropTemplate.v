(** C81: the templates in internal/gen/triegen/print.go, expanded by text/template, are the text that C51 is about. *)
From Coq Require Import String.
From Verif Require Import Base Trie Triegen SpecData SpecDataFile SpecFiles SpecGenerate MainFacts SpecGoSource GenMain GenParse Crc64 Print PrintCheck PropFiles PropPrint Template TemplateFacts TemplateTotal SourcePrint.
From Verif Require SourceGraphemes SourceWords SourceSentences SourcePhrases.
Local Open Scope N_scope.

(** [source_text print_lines] is the file print.go.  For one trie and the simple compacter, its templates give this text. *)
Theorem C81_expands : forall b t c, bt_tries b = [t] -> bt_compactions b = [c] -> c_handler c = bt_name b ++ str "Values[n<<6+uint32(b)]" -> bt_vtype b = str "property" -> bt_itype b = str "property" ->
  print_go (source_text print_lines) b = Some (lookup_text (bt_name b) ++ trie_head (bt_name b) (title (bt_name b)) (bt_size b) (bt_checksum b)
    ++ array_text (bt_name b ++ str "Values") (str "// The third block is the zero block.") printValues (bt_vsize b) (bt_values b)
    ++ array_text (bt_name b ++ str "Index") (str "// Block 0 is the zero block.") printIndex (bt_isize b) (bt_index b)).
Proof. exact templates_expand. Qed.

(** However many tries and compactions there are and whatever they hold, no action of the templates fails. *)
Theorem C81_total : forall b, bt_compactions b <> [] -> exists out, print_go (source_text print_lines) b = Some out.
Proof. exact templates_total. Qed.

(** So what writeTrie writes with these templates is what C51 says. *)
Theorem C81_written : forall H p names t, writeTemplates (source_text print_lines) H p names t = Some (writeTrie H p names t).
Proof.
  intros H p names t. unfold writeTemplates, gen_built, writeTrie. destruct (buildTrie H t) as [h b].
  erewrite C81_expands by reflexivity. cbn [option_map bt_name bt_values bt_index bt_vsize bt_isize bt_size bt_checksum]. unfold file_text. destruct p; reflexivity.
Qed.

(** From files that say what the Unicode properties are, the templates of print.go give the committed trie.go of each package, up to layout. *)
Definition committed_lines (p : package) : list string :=
  match p with Grapheme => SourceGraphemes.graphemes_lines | Word => SourceWords.words_lines | Sentence => SourceSentences.sentences_lines | Phrase => SourcePhrases.phrases_lines end.
Theorem C81_files : forall p tf tr emoji core breaks ee ec eb ideo props t,
  file_says emoji ee -> emoji_file ee -> file_says core ec -> incb_file ec -> file_says breaks eb -> break_file (family_of p) eb -> ideographs ideo ->
  main_properties tf tr p emoji core breaks ideo = Ok props -> generates props (Ok t) ->
  exists out, writeTemplates (source_text print_lines) crc64 p (sortStrings (map fst props)) t = Some out /\ same_but_layout out (source_text (committed_lines p)).
Proof.
  intros p tf tr emoji core breaks ee ec eb ideo props t Fe Ee Fc Ec Fb Eb Id P G. rewrite C81_written. eexists. split; [reflexivity|].
  assert (W : writes_file p (committed_lines p)) by (destruct p; [exact C51_graphemes_written|exact C51_words_written|exact C51_sentences_written|exact C51_phrases_written]).
  destruct (W tf tr emoji core breaks ee ec eb ideo _ Fe Ee Fc Ec Fb Eb Id (writes_text tf tr crc64 p emoji core breaks ideo props t P G)) as (out & E & S). injection E as ->. exact S.
Qed.

(** Gen says that newNameTrie(x) returns the trie for tries[x].  That function is only there as a comment: in none of the files is it declared or called. *)
Definition constructor (p : package) : bytes := str "new" ++ title (package_name p) ++ str "Trie".
Theorem C81_constructor_refuted : forall p tf tr emoji core breaks ee ec eb ideo props t out,
  file_says emoji ee -> emoji_file ee -> file_says core ec -> incb_file ec -> file_says breaks eb -> break_file (family_of p) eb -> ideographs ideo ->
  main_properties tf tr p emoji core breaks ideo = Ok props -> generates props (Ok t) ->
  writeTemplates (source_text print_lines) crc64 p (sortStrings (map fst props)) t = Some out -> ~ In (W (constructor p)) (tokens out).
Proof.
  intros p tf tr emoji core breaks ee ec eb ideo props t out Fe Ee Fc Ec Fb Eb Id P G E.
  destruct (C81_files p tf tr emoji core breaks ee ec eb ideo props t Fe Ee Fc Ec Fb Eb Id P G) as (out' & E' & S). rewrite E in E'. injection E' as <-. destruct S as [-> _].
  assert (B : existsb (fun k => match k with W w => same w (constructor p) | M _ => false end) (SpecGoSource.tokens (source_text (committed_lines p))) = false) by (destruct p; vm_cast_no_check (eq_refl false)).
  intros I. assert (X : existsb (fun k => match k with W w => same w (constructor p) | M _ => false end) (SpecGoSource.tokens (source_text (committed_lines p))) = true).
  { apply existsb_exists. exists (W (constructor p)). split; [exact I|]. unfold same. destruct (list_eq_dec N.eq_dec (constructor p) (constructor p)) as [_|Q]; [reflexivity|contradiction]. }
  rewrite B in X. discriminate X.
Qed.

(** A template of one's own; two tries, whose handles are listed; one trie. *)
Fixpoint occurs (p s : bytes) : bool := starts p s || match s with [] => false | _ :: r => occurs p r end.
Example C81_case :
  execute [] (str "{{range $i, $v := .L}}{{if eq $i 1}}({{$v.N}}){{else}}{{.N}},{{end}}{{end}}{{len .L}}") (rec [("L"%string, VList [rec [("N"%string, VNum 5)]; rec [("N"%string, VNum 70)]; rec [("N"%string, VStr (str "x"))]])]%list)
    = Some (str "5,(70)x,3")
  /\ execute [] (str "{{.M}}") (rec [("L"%string, VNum 1)]) = None
  /\ (let tr n := {| ti_name := n; ti_checksum := 255; ti_ascii := 0; ti_starter := 3 |} in
      let b l := {| bt_name := str "ab"; bt_tries := l; bt_compactions := [{| c_cutoff := 9; c_offset := 0; c_handler := str "h" |}]; bt_values := [[1; 0; 2]]; bt_index := [];
                    bt_vtype := str "T"; bt_vsize := 1; bt_itype := str "U"; bt_isize := 2; bt_checksum := 171; bt_size := 1024 |} in
      (exists s, print_go (source_text print_lines) (b [tr (str "p"); tr (str "q")]) = Some s /\ occurs (str "{ 0, 3 }, // 000000ff: q") s = true) /\
      exists s, print_go (source_text print_lines) (b [tr (str "p")]) = Some s /\ occurs (str "000000ff") s = false /\ occurs (str "1024 bytes (1.00 KiB). Checksum: 000000ab.") s = true).
Proof.
  split; [vm_compute; reflexivity|]. split; [vm_compute; reflexivity|]. split.
  - eexists. split; vm_compute; reflexivity.
  - eexists. split; [vm_compute; reflexivity|]. split; vm_compute; reflexivity.
Qed.

Print Assumptions C81_expands.
Print Assumptions C81_total.
Print Assumptions C81_written.
Print Assumptions C81_files.
Print Assumptions C81_constructor_refuted.
Print Assumptions C81_case.
