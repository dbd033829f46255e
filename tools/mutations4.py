MUTATIONS = []
def m(id, file, d, old, new, claim, *breaks):
    MUTATIONS.append({'id': id, 'file': file, 'def': d, 'old': old, 'new': new, 'claim': claim, 'breaks': list(breaks)})
# --- redone after tightening
m('T03b','Options','make_options','(given (fl_repository_remote f) default_repository_remote) (given (fl_module_path f) "")','default_repository_remote (given (fl_module_path f) "")','--repository-remote ignored','C60')
m('G02b','Signature','write','"chan<- " +:+ write false t','"<-chan " +:+ write false t','send-only channels shown as receive-only','C62')
m('P27b','Pass1','iface_method_events','map (λ i, Ev (sc ++ [Desc (id_name i) Method]) (Some f) i (id_pos i)) names','map (λ i, Ev (sc ++ [Desc (id_name i) Term]) (Some f) i (id_pos i)) names','methods of anonymous result interfaces get a term suffix','C68')
m('P25b','Pass1','spec_scope_name','"inline-" +:+ show_Z (pos_line p) +:+ "-" +:+ show_Z (pos_col p)','"inline-" +:+ show_Z (pos_line p)','anonymous structs of two value specs on one line share a scope','C52','C63','C67')
# --- Impls
m('J01','Impls','same_fieldb','(is_exported (fh_name f) || bool_decide (fh_pkg f = fh_pkg g))','true','unexported fields of different packages are the same field','C34')
m('J02','Impls','identicalb','(ids ps ps\' && ids rs rs\' && Bool.eqb v v\')','(ids ps ps\' && ids rs rs\')','variadic and slice parameters identical','C34')
m('J03','Impls','implements','String.eqb (obj_Id m) it.1 && identicalb (o_type m) it.2','String.eqb (obj_Id m) it.1','types of methods are not compared','C34','C35')
m('J04','Impls','add_rel','(λ l, l ++ [implementation_of s])','(λ l, [implementation_of s])','a new relationship overwrites the others','C34')
m('J05','Impls','extract_local','| Some tbl => res_fold (extract_def g p tbl) st (or_defs o p)','| Some tbl => Ok st','local types are not candidates','C36')
m('J06','Impls','extract_remote','res_fold (extract_object g p) st (scope_objects p)','Ok st','types of dependencies are not candidates','C35','C36')
m('J07','Impls','object_cell','match get_info_by_path g id (o_pos o) with Some _ => Some (CTab id (o_pos o)) | None => None end)\n                            (test_package_combinations (tp_path tp))','None)\n                            (test_package_combinations (tp_path tp))','relationships of methods are put on copies','C34')
m('J08','Impls','method_symbol','(<[obj_Id m := (c, i_symbol info)]> ms, (new, rk.2))','(<[o_name m := (c, i_symbol info)]> ms, (new, rk.2))','methods keyed by name: unexported methods of different packages confused','C34','C36')
m('J09','Impls','implements','&& constraint_ok v (TInterface ms s))%bool','|| constraint_ok v (TInterface ms s))%bool','constraint alone suffices','C34','C35')
m('J10','Impls','passes','(implements (d_named t) ms s || implements (TPointer (d_named t)) ms s)','(implements (d_named t) ms s)','methods with pointer receivers ignored','C34')
m('J11','Impls','extract_object','if String.eqb sym "" then','if negb (String.eqb sym "") then','remote types with a symbol dropped','C35','C36')
m('J12','Impls','method_mask','N.lor mask (N.shiftl 1','N.land mask (N.shiftl 1','mask is always zero (only slower)','(none: the mask is a filter)')
m('J13','Impls','find_implementations','let m := canon m (d_sym t) in','let m := m in','relationships of types not canonical','C34')
# --- Index
m('K01','Index','packages_of','(sorted_keys order)','order','documents in map order','C57','C38')
m('K02','Index','index_file','Some t => t | None => ∅ end in\n        let! st','Some t => ∅ | None => ∅ end in\n        let! st','document has no symbols of the table','C10')
m('K03','Index','visit_package_syntax','let! docs := res_fold (add_document root) st.1 (p_syntax p) in\n            Ok (docs, g_add st.2 p tbl)','let! docs := res_fold (add_document root) st.1 (p_syntax p) in\n            Ok (docs, g_add st.2 p ∅)','first pass forgets the table','C53','C54')
m('K04','Index','visit_package_syntax','| [] => Ok (st.1, g_add st.2 p ∅)\n    | _ =>\n        match p_info p with','| [] => Ok st\n    | _ =>\n        match p_info p with','packages without files are not recorded','(none: set_pkg_symbols recorded it)')
m('K05','Index','package_info','(Some ("package " +:+ p_name p))','(Some ("package " +:+ p_path p))','package signature shows the path','C20')
m('K06','Index','find_package_docs','(List.filter file_has_doc (p_syntax p))','(p_syntax p)','files without doc comment contribute empty documentation','C20')
m('K07','Index','index','write_documents g docs [MMeta meta] 0 k (items_of (packages_of h proj porder2))','write_documents g docs [MMeta meta] 0 (Caches ∅ (new_composer root version)) (items_of (packages_of h proj porder2))','composer memo dropped after the search (harmless)','(none)')
m('K08','Index','index','let \'(msgs, e) := write_all w msgs (map MExt exts) in (msgs, Returned e)','let \'(msgs, e) := write_all w msgs (map MExt exts) in (msgs, Returned None)','errors writing external symbols swallowed','C38','C64')
m('K09','Index','list_missing','Some _ => acc | None => acc ++ [n] end','Some _ => acc ++ [n] | None => acc end','missing inverted','C42')
m('K10','Index','write_documents','| None => write_documents g docs sofar n k items','| None => (sofar, Returned None, k)','a file without document stops the run','C42')
# --- Loader
m('O20','Loader','default_path','with_mpath m "." else m','m else m','empty module path kept','C25')
m('O21','Loader','builtin_pkg','(bare_module "github.com/golang/go/src/builtin" (io_go_version o))','(bare_module "github.com/golang/go/src/builtin" (io_module_version o))','builtin package has the version of the module','C28','C56')
m('O22','Loader','load_packages','load_loop (with_default_version o) w','load_loop o w','default version not used','C25')
m('O23','Loader','normalize_package','(trim_prefix (p_path p) "std/")','(p_path p)','std/ kept in package paths','C28')
m('O24','Loader','normalize_package','(bare_module stdlib_module_path (io_go_version o))','(bare_module stdlib_module_path (io_module_version o))','stdlib symbols carry the version of the indexed module','C28','C56')
m('O25','Loader','load_loop','load_loop o w h1 t1 (<[p_path g := q]> pj) ps h2 t2 pj2','load_loop o w h1 t1 (<[p_path g := p]> pj) ps h2 t2 pj2','project table keeps the loaded variant, not the one recorded','C27')
# --- Lookup
m('N01','Lookup','is_error_Error','(String.eqb (o_name (origin o)) "Error"','(negb (String.eqb (o_name (origin o)) "Error")','error.Error crashes','C21')
m('N02','Lookup','get_symbol_of_object','| OConst | OBuiltin => Ok (Skip, k)','| OBuiltin => Ok (Skip, k)','true, false, iota crash','C21')
m('N03','Lookup','get_symbol_of_object','| ONil | OLabel => Ok (Skip, k)','| ONil => Ok (Skip, k)','labels looked up like package-level objects','C21','C58')
m('N04','Lookup','lookup_in_package','if String.eqb sym "" then (LookupError, c\')','if String.eqb sym "x" then (LookupError, c\')','occurrences with an empty symbol','C13','C54')
m('N05','Lookup','g_add','(<[p_path p := (p, t)]> (g_symbols g)) (g_pkgsyms g).\n','(<[p_name p := (p, t)]> (g_symbols g)) (g_pkgsyms g).\n','tables keyed by package name','C24','C29')
m('N06','Lookup','bare_info','Info s [] [] KUnspecified "" None ""','Info s [""] [] KUnspecified "" None ""','references to dependencies carry an empty doc (not observable)','(none)')
# --- Pass2
m('Q20','Pass2','diags','if deprecated then [DeprecatedDiag] else []','if deprecated then [] else [DeprecatedDiag]','deprecation inverted','C18')
m('Q21','Pass2','is_deprecated','| None => false','| None => true','locals deprecated','C18')
m('Q22','Pass2','new_definition','Occ rng sym role_definition encl','Occ rng sym role_read_access encl','definitions have the role of references','C13')
m('Q23','Pass2','visit_file','(FState ∅ [pkg_occ] None k)','(FState ∅ [] None k)','package clause has no occurrence','C20','C13')
m('Q24','Pass2','qualifier','match o_kind o with OPkgName path => Some (i, o, path) | _ => None end','None','qualified identifiers treated as objects: crash','C21')
m('Q25','Pass2','visits','| Some sym => [VQual i o sym; VIdent sel]','| Some sym => [VQual i o sym]','selected names of packages not indexed','C13','C54')
m('Q26','Pass2','step','if String.eqb (id_name i) "_" then Ok st','if String.eqb (id_name i) "__" then Ok st','blank identifiers get occurrences','C13')
m('Q27','Pass2','visit_ref','| Some l => Ok (emit st (new_reference (l_symbol l) (ident_range i (Some ref)) false))','| Some l => Ok (emit st (new_reference (l_symbol l) (ident_range i (Some ref)) true))','references to locals deprecated','C18')
m('Q28','Pass2','visit_def','(enclosing_range st\' i)','[]','functions have no enclosing range','C13','C14')
m('Q29','Pass2','visits','VFunc nm p e ::\n      match r with Some x => vs x | None => [] end ++','VFunc nm p e ::','receivers not visited','C13')
# --- Cli
m('D20','Cli','append_to','<[q := FReg (c +:+ b)]> t','<[q := FReg b]> t','partial message overwrites the file','C40')
m('D21','Cli','stat_regular','Some (FReg _) => true | _ => false end','Some (FReg _) => true | Some (FSpecial _) => true | _ => false end','special files removed after an error','C40')
m('D22','Cli','packages_lines','["Current packages"] ++ current ++ ["Dependency packages"] ++ deps','["Current packages"] ++ deps ++ ["Dependency packages"] ++ current','packages command swaps the lists','C43')
m('D23','Cli','missing_lines','["Missing documents:"] ++ missing','["Missing documents:"]','missing documents not listed','C42','C43')
m('D24','Cli','follow','| Some (FLink q) => match fuel with O => None | S fuel => follow fuel t q end','| Some (FLink q) => Some q','only one link followed','C40')
m('D25','Cli','index_cmd','| Crashed e => (t, out, Exit 2 (Some e))\n            | Returned (Some e)','| Crashed e => (t, out, Exit 0 None)\n            | Returned (Some e)','a crash exits with 0','C40','C64')
# --- Document
m('M20','Document','declares_ident','existsb (λ nm, Nat.eqb (id_ptr nm) (id_ptr i)) names','match names with nm :: _ => Nat.eqb (id_ptr nm) (id_ptr i) | [] => false end','var a, b: b has no documentation of its spec','C19')
m('M21','Document','find_close','| Some (q, t) => Some (String "\\" (String c q), t)','| Some (q, t) => Some (String c q, t)','backslashes dropped in tags','C51')
m('M22','Document','new_symbol_info','(kind_for_object env def) (id_name i)','(kind_for_object env def) sym','display name is the symbol','C61','C10')
m('M23','Document','hover_node','| NFuncDecl doc _ _ _ _ _ _ => trim_space doc','| NFuncDecl doc _ _ _ _ _ _ => doc','function docs untrimmed','C19')
# --- Options
m('T20','Options','default_module_root','(S (S (slen cwd))) cwd with','(S (S (slen cwd))) toplevel with','search starts at the git root','C60','C45')
m('T21','Options','default_module_version','infer_module_version (mc_tags mc d) (mc_rev mc d)','infer_module_version (mc_rev mc d) (mc_tags mc d)','tags and commit swapped','C60','C47')
m('T22','Options','packages_driver','else if String.eqb tool "" then found else Some tool','else Some tool','driver in PATH ignored','C60')
m('T23','Options','toplevel','if ok then out else ""','out','error text of git used as root','C60','C45')
# --- Pass1
m('P40','Pass1','tv','else tv WALK iface cur (sc ++ [Desc key Type_]) f\n        | _ => []','else tv WALK iface cur sc f\n        | _ => []','fields of anonymous struct fields are fields of the outer type','C52','C63','C67')
m('P41','Pass1','fv','(sc1 ++ [Desc "func" Meta; Desc (id_name nm) Meta])','(sc1 ++ [Desc (id_name nm) Meta])','anonymous results of func f and members of var f share a scope','C67','C68')
m('P42','Pass1','vv','let st1 := v_push st (Desc (spec_scope_name names) Meta) in','let st1 := st in','members of anonymous types of variables are at package level','C17','C63','C67')
m('P43','Pass1','tv','if iface then tv WALK iface cur sc t\n            else map','if negb iface then tv WALK iface cur sc t\n            else map','embedded fields not recorded','C53')
m('P44','Pass1','vv','(Some n) i (node_pos t))','(Some n) i (id_pos i))','position of a qualified embedded type is that of its selector (a fix)','(none: the fix)')
m('P45','Pass1','package_events','List.concat (map (file_events (p_path pkg)) (p_syntax pkg))','match p_syntax pkg with f :: _ => file_events (p_path pkg) f | [] => [] end','only the first file of a package','C53')
m('P46','Pass1','tv','| NStarExpr _ x => tv ANON iface cur sc x','| NStarExpr _ x => []','fields of *struct{...} fields unrecorded','C63')
# --- Symbols, Scip, Url, Env
m('S20','Symbols','locate_owner','se_name <$> List.find (owns_field env fid) scope','se_name <$> head scope','first name of the scope owns every field','C05')
m('S21','Symbols','add32','int32 (x + y)','(x + y)%Z','positions not 32 bits (only for huge lines)','(beyond the bounds of C16)')
m('S22','Symbols','describe','| OConst => [ns; Desc (o_name o) Term]','| OConst => [ns; Desc (o_name o) Type_]','constants of dependencies are types','C05')
m('S23','Symbols','name_type','| TAlias _ r => name_type r','| TAlias _ r => ""','methods with alias receivers lost','C04')
m('R20','Scip','flatten_add','then rel_or x r :: acc\'','then x :: acc\'','flags of duplicates dropped','C34')
m('R21','Scip','escape_with','if Ascii.eqb c e then String e (String e (escape_with e r))','if Ascii.eqb c e then String e (escape_with e r)','escapes not doubled','C01')
m('R22','Scip','format_descriptor','format_name (d_name d) +:+ suffix_string (d_suffix d)','d_name d +:+ suffix_string (d_suffix d)','names not escaped','C01')
m('U20','Url','path_escape','(String (upper_hex (ord c / 16)) (String (upper_hex (ord c mod 16)) (path_escape s)))','(String (upper_hex (ord c mod 16)) (String (upper_hex (ord c / 16)) (path_escape s)))','nibbles swapped','C65')
m('E20','Env','hostname','then str_take i host else host','then host else host','port kept in the repository name','C46')
m('E21','Env','infer_repo','if ok then parse_remote url else None','parse_remote url','git\'s error text parsed as a URL','C46','C60')
m('E22','Env','truncate','d - Z.rem d m','d + Z.rem d m','elapsed time rounded up wrongly','C49')
m('E23','Env','module_name','(String.eqb n "std" || std)','std','module std not recognised','C48','C60')
m('E24','Env','parse_remote','trim_suffix b ".git"','b','.git kept for ssh remotes','C46')
# --- Output
m('W20','Output','counts','match a with Count => true | _ => false end','false','progress never counts','C41')
m('W21','Output','step_final2','MReturned v (o ++ [PNewline])','MReturned v o','no newline after progress','C41')
m('W23','Output','with_progress','| Quiet => (fn, inner)','| Quiet => (fn, [String.append name (String "010" "")] ++ inner)','quiet prints','C55')
# --- Fingerprint, Program
m('F20','Fingerprint','print','(if v then " v" else "")','""','variadic not in the fingerprint','C31')
m('F21','Fingerprint','encode_panics','| TUnion _ => true','| TUnion _ => false','unions encode to the empty text','C31')
m('F22','Fingerprint','quote_body','escaped_rune u (ord c) +:+ quote_body u fuel r\n          else','String c "" +:+ quote_body u fuel r\n          else','quotes in tags not escaped','C31')
m('X20','Program','program_run','(io_module_root i) (io_module_version i)','(io_module_version i) (io_module_root i)','composer defaults swapped (never used: every package has a module)','(none)')
m('X21','Program','sg_options','(Some e) (λ _, ([], Returned None)) output t)','None (λ _, ([], Returned None)) output t)','an error of the options exits with 0','C64')
