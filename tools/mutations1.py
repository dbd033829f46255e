MUTATIONS = []
def m(id, file, d, old, new, claim, *breaks):
    MUTATIONS.append({'id': id, 'file': file, 'def': d, 'old': old, 'new': new, 'claim': claim, 'breaks': list(breaks)})
# --- Scip
m('S01','Scip','format_field','escape_with " " (if String.eqb s "" then "." else s)','(if String.eqb s "" then "." else s)','spaces inside package fields are not doubled: two different packages can give one symbol','C01')
m('S02','Scip','format_name','String backtick (escape_with backtick s +:+ String backtick "")','String backtick (s +:+ String backtick "")','backticks inside descriptor names are not doubled: symbols ambiguous','C01')
m('S03','Scip','suffix_string','Method => "()."','Method => "."','methods and terms get the same suffix','C01')
m('S04','Scip','is_simple_char','Ascii.eqb c "$" || Ascii.eqb c "-"','Ascii.eqb c "$" || Ascii.eqb c "-" || Ascii.eqb c "/"','slash treated as an identifier character: path a/b and nested namespaces collide','C01')
m('S05','Scip','canonicalize_relationships','merge_sort rel_le (flatten_relationships l)','flatten_relationships l','relationships not sorted','C34')
m('S06','Scip','canonicalize_relationships','merge_sort rel_le (flatten_relationships l)','merge_sort rel_le l','duplicate relationships kept','C34')
m('S07','Scip','rel_or','(r_is_implementation a || r_is_implementation b)','(r_is_implementation a && r_is_implementation b)','merged relationship loses its flag','C34')
m('S08','Scip','format_field','(if String.eqb s "" then "." else s)','s','empty package field is not replaced by a dot','C01')
# --- Symbols
m('Y01','Symbols','range_from_name','let line := int32 (pos_line p - 1)','let line := int32 (pos_line p)','import / package ranges one line too low','C14','C15')
m('Y02','Symbols','range_from_name','add32 (add32 column n) adj]','add32 column n]','import range does not shift its end past the quote','C14','C15')
m('Y03','Symbols','compose','let o := origin o0 in','let o := o0 in','instances get their own symbol (memo keyed by the instance)','C04','C02')
m('Y04','Symbols','compose','((o_id o, s) :: c_memo c)','((0, s) :: c_memo c)','memo entry recorded under a wrong key','C02')
m('Y05','Symbols','name_type','| TPointer u => name_type u','| TPointer u => ""','pointer receivers not stripped','C04','C03')
m('Y06','Symbols','describe','[ns; Desc r Type_; Desc (o_name o) Method]','[ns; Desc (o_name o) Method]','methods of different types share a symbol','C05','C07','C03')
m('Y07','Symbols','describe','| OVar false => [ns; Desc (o_name o) Term]','| OVar false => [ns; Desc (o_name o) Type_]','variables composed as types','C05','C03')
m('Y08','Symbols','pack','| Some m => SPkg "gomod" (m_path m) (m_version m)\n      | None','| Some m => SPkg "gomod" (m_version m) (m_path m)\n      | None','path and version swapped when composing','C03','C05')
m('Y09','Symbols','kind_for_object','if is_interface env recv then KMethodSpecification else KMethod','if is_interface env recv then KMethod else KMethodSpecification','kinds of methods swapped','C08')
m('Y10','Symbols','kind_for_object','| OVar true => KField\n      | OVar false => KVariable','| OVar true => KVariable\n      | OVar false => KField','fields labelled variables','C08')
m('Y11','Symbols','from_descriptors','(SPkg "gomod" (m_path m) (m_version m)) ds))','(SPkg "gomod" (m_path m) "") ds))','declared symbols lose the version','C05','C29')
m('Y12','Symbols','owns_field','existsb (λ f, Nat.eqb (fh_id f.1) fid) fs','false','fields never find their owner','C03','C05')
m('Y13','Symbols','int32','(x + 2^31) mod 2^32 - 2^31','x mod 2^32','int32 conversion unsigned','C14')
m('Y14','Symbols','compose','Some s => (s, c)','Some s => ("", c)','second lookup of an object fails','C02','C23')
# --- Document
m('D01','Document','is_doc_deprecated','has_prefix line "Deprecated:"','has_prefix line "Deprecated"','text "Deprecatedly" counts as deprecation','C18')
m('D02','Document','is_doc_deprecated','(split_on newline d)','[d]','only the first line is inspected','C18')
m('D03','Document','hover_spec','if String.eqb doc "" then hover_node parent else doc','doc','specs without doc no longer show the group comment','C19')
m('D04','Document','documentation','if String.eqb d0 block then docs else docs ++ [block]','docs ++ [block]','block comment listed twice','C19')
m('D05','Document','documentation','docs ++ [block]','docs','block comment dropped when the spec has its own','C19')
m('D06','Document','hover_node','| NField doc cmt _ _ => trim_space (doc +:+ nl +:+ cmt)','| NField doc cmt _ _ => trim_space doc','line comments of fields dropped','C19')
m('D07','Document','new_symbol_info','(kind_for_object env def) (id_name i)','(kind_for_object env def) sym','display name is the symbol','C53','C19')
m('D09','Document','quoted_tags_fuel','| None => quoted\n','| None => q\n','undecodable literal loses its opening quote','C51')
m('D10','Document','hover_ident','match List.find (declares_ident i) specs with','match List.find (λ s, negb (declares_ident i s)) specs with','documentation of another spec of the group','C19')
m('D11','Document','new_symbol_info','(documentation parent i) [] (kind_for_object env def)','[] [] (kind_for_object env def)','no documentation recorded','C19')
# --- Lookup
m('L01','Lookup','pset','then m else <[pos := info]> m\n  | None','then m else m\n  | None','conflicting registration ignored','C22')
m('L02','Lookup','pset','then m else <[pos := info]> m\n  | None','then <[pos := info]> m else <[pos := info]> m\n  | None','repeated registration overwrites the entry','C22')
m('L03','Lookup','symbols_for_file','fs_file fs e.1 = Some file','fs_file fs e.1 ≠ Some file','symbols listed in the wrong documents','C16')
m('L04','Lookup','test_package_combinations','[path; path +:+ ".test"; path +:+ " [" +:+ path +:+ ".test]"]','[path]','test variants not searched','C24')
m('L05','Lookup','test_package_combinations','[path; path +:+ ".test"; path +:+ " [" +:+ path +:+ ".test]"]','[path +:+ ".test"; path; path +:+ " [" +:+ path +:+ ".test]"]','test variant preferred over the package','C24')
m('L06','Lookup','lookup_in_package','(Found (bare_info sym), c\')','(LookupError, c\')','dependency objects never composed','C24','C54')
m('L07','Lookup','lookup_in_package','if String.eqb path "unsafe" then (Skip, c)','if String.eqb path "unsafe" then (LookupError, c)','unsafe objects are errors','C24')
m('L08','Lookup','get_symbol_of_object','Ok (r, Caches (k_skipped k) c\')','Ok (r, Caches ({[ obj_Id o ]} ∪ k_skipped k) c\')','after the first lookup every object of that name is skipped','C23')
m('L09','Lookup','get_symbol_of_object','| OConst | OBuiltin => Ok (Skip, k)','| OConst => Ok (Skip, k)','builtins panic','C21')
m('L10','Lookup','set_pkg_symbol','[Desc (p_path p) Namespace]','[Desc (p_name p) Namespace]','package symbol uses the package name','C29')
m('L11','Lookup','signature_text','"import " +:+ o_name (l_obj l) +:+ " " +:+ path','"import " +:+ path +:+ " " +:+ o_name (l_obj l)','signature of a local import swaps name and path','C09')
m('L12','Lookup','lookup_in_package','compose env c (Some pkg) (Some o)','compose env c None (Some o)','composed with the default package','C24','C54')
# --- Pass1
m('P01','Pass1','tv','| NInterfaceType _ _ f => tv WALK iface cur sc f\n        | NFieldList','| NInterfaceType _ _ f => []\n        | NFieldList','interface methods not declared','C05','C53')
m('P02','Pass1','tv','Ev sc\' cur nm (id_pos nm) :: tv WALK iface cur sc\' t','Ev sc\' cur nm (id_pos nm) :: tv WALK iface cur sc t','fields scoped to the package instead of the type','C05','C07')
m('P03','Pass1','tv','tv WALK iface cur (sc ++ [Desc key Type_]) f\n        | _ => []','tv WALK iface cur sc f\n        | _ => []','anonymous struct members clash with the outer members','C52')
m('P04','Pass1','vv','let \'(st3, e3) := vvs vs st2 in (v_pop st3, e3)','let \'(st3, e3) := vvs vs st2 in (st3, e3)','scope not popped after a value spec','C17','C05')
m('P05','Pass1','ident_of_type_expr','| NSelectorExpr _ sel => [sel]','| NSelectorExpr x _ => ident_of_type_expr x','embedded pkg.T named after the package','C05')
m('P06','Pass1','base_type_name','| NStarExpr _ x | NIndexExpr x _ | NIndexListExpr x _ | NParenExpr _ x','| NIndexExpr x _ | NIndexListExpr x _ | NParenExpr _ x','pointer receivers not recognised','C05','C07')
m('P07','Pass1','fv','Ev (sc1 ++ [Desc (id_name nm) Method]) (Some n) nm (id_pos nm)','Ev (sc1 ++ [Desc (id_name nm) Term]) (Some n) nm (id_pos nm)','functions declared as terms','C05')
m('P08','Pass1','file_events','tv WALK false None (new_scope path) f ++\n    match f','match f','types not declared','C05','C53')
m('P09','Pass1','decl_events','| NGenDecl _ (VAR | CONST) _ _ =>','| NGenDecl _ VAR _ _ =>','constants not declared','C05','C53')
m('P10','Pass1','scip_range','if Z.eqb sl el then [sl; add32 sc adj; sub32 ec adj]','if Z.eqb sl el then [sl; add32 sc adj; ec]','end not adjusted for quoted names','C14')
m('P11','Pass1','scip_range','else [sl; add32 sc adj; el; sub32 ec adj]','else [sl; add32 sc adj; sub32 ec adj]','multi-line ranges lose their end line','C14')
m('P12','Pass1','anon_type_key','"$anon_" +:+ digest canon','"$anon_"','all anonymous types share one key','C52')
m('P13','Pass1','apply_event','(e_parent e) (e_ident e)))','None (e_ident e)))','documentation parent dropped','C19')
m('P14','Pass1','vv','Ev (v_scope st ++ [Desc (id_name i) Term]) (v_cur st) i (id_pos i)) names in','Ev (v_scope st ++ [Desc (id_name i) Term]) None i (id_pos i)) names in','values lose their documentation','C19')
m('P15','Pass1','tv','if iface then tv WALK iface cur sc t\n            else','if negb iface then tv WALK iface cur sc t\n            else','embedded fields swapped with embedded interfaces','C05')
m('P16','Pass1','v_pop','scope_pop (v_scope st)','v_scope st','scopes never popped','C17')
# --- Pass2
m('Q01','Pass2','create_local','show_nat (size (f_locals st))','show_nat 0','all locals are local 0','C09')
m('Q02','Pass2','case_at','Z.eqb (o_pos o) p','Z.eqb (o_pos o) (p + 1)','case clause objects not found','C09','C11','C13')
m('Q03','Pass2','visits','| None => vs x ++ [VIdent sel]','| None => [VIdent sel]','operand of a selector not visited','C13')
m('Q04','Pass2','visits','| Some sym => [VQual i o sym; VIdent sel]','| Some sym => [VQual i o sym]','selected member of a package not visited','C13')
m('Q05','Pass2','visits','VIdent nm :: vs t ++ match b with','vs t ++ match b with','function names have no definition','C13','C53')
m('Q06','Pass2','visit_def','(is_deprecated (o_pos def))))','false))','deprecated definitions not diagnosed','C18')
m('Q07','Pass2','visit_ref','(is_doc_deprecated (i_documentation info))))','false))','deprecated references not diagnosed','C18')
m('Q09','Pass2','new_reference','Occ rng sym role_read_access []','Occ rng sym role_definition []','references have the definition role','C13')
m('Q10','Pass2','enclosing_range','if Nat.eqb (id_ptr nm) (id_ptr i)','if negb (Nat.eqb (id_ptr nm) (id_ptr i))','enclosing range on every identifier but the name','C14','C13')
m('Q11','Pass2','import_occurrences','if (String.eqb (id_name i) "." || String.eqb (id_name i) "_")%bool then []','if (String.eqb (id_name i) "_")%bool then []','dot imports get a name occurrence','C13','C15')
m('Q12','Pass2','import_occurrences','(p_path imported) true) false]','(p_path imported) false) false]','import range starts at the quote','C15')
m('Q13','Pass2','step','if String.eqb (id_name i) "_" then Ok st','if String.eqb (id_name i) "_" then visit_def st i','blank identifiers become definitions','C13')
m('Q14','Pass2','to_document','map snd (symbols_for_file fs file torder) ++ map','map','package symbols missing from documents','C10','C16')
m('Q15','Pass2','local_info','Info (l_symbol l) [] [] (kind_for_object env (Some o)) (o_name o) sig ""','Info (l_symbol l) [] [] (kind_for_object env (Some o)) "" sig ""','locals have no display name','C09')
m('Q16','Pass2','visit_def','match pget_symbol tbl (o_pos def) with','match pget_symbol tbl (o_pos def + 1) with','definition looked up one byte off','C11','C53')
m('Q17','Pass2','emit','f_occs st ++ [o]','o :: f_occs st','occurrences in reverse order','C13')
m('Q18','Pass2','ident_end','(id_pos i + Z.of_nat (slen (id_name i)))','(id_pos i + Z.of_nat (slen (id_name i)) + 1)','ranges one byte too long','C14','C13')
