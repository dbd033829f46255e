MUTATIONS = []
def m(id, file, d, old, new, claim, *breaks):
    MUTATIONS.append({'id': id, 'file': file, 'def': d, 'old': old, 'new': new, 'claim': claim, 'breaks': list(breaks)})
# --- redone with the sanity examples moved to ExText.v, and with the new theorems
m('V01b','Semver','parse_int','negb (Nat.eqb (slen p.1) 1))%bool then None','negb (Nat.eqb (slen p.1) 2))%bool then None','leading zeros accepted in versions','C47','C25')
m('V02b','Semver','pseudo_version_rev','last_index "-" v with Some j => Some (str_drop (S j) v)','last_index "-" v with Some j => Some (str_drop j v)','revision keeps the dash','C25')
m('V03b','Semver','pseudo_version_rev','let v := trim_suffix v (semver_build v) in','let v := v in','revision keeps +incompatible','C25')
m('V04b','Semver','is_pseudo_version','Nat.leb 2 (count_char "-" v)','Nat.leb 3 (count_char "-" v)','v0.0.0 pseudo-versions not recognised','C25')
m('V05b','Semver','pseudo_re','(RRep 14 (RCls is_digit))','(RRep 12 (RCls is_digit))','timestamps of the wrong length','C25')
m('H01b','Paths','clean_step','if String.eqb top ".." then c :: acc else rest','rest','../.. collapses','C44')
m('H02b','Paths','strip_common','if String.eqb x y then strip_common b\' t\' else (b, t)','if String.eqb x y then (b\', t\') else (b, t)','only one common element stripped','C44')
m('H03b','Paths','path_rel','Some (join "/" (map (λ _, "..") rb ++ rt))\n    | _, _','Some (join "/" rt)\n    | _, _','no .. for the remaining base elements','C44')
m('O14b','Loader','with_default_version','(if String.eqb (io_module_version o) "" then "." else io_module_version o)\n        (io_module_path o)','(io_module_version o)\n        (io_module_path o)','module version not defaulted','C25')
m('Q15b','Pass2','local_info','Info (l_symbol l) [] [] (kind_for_object env (Some o)) (o_name o) sig ""','Info (l_symbol l) [] [] (kind_for_object env (Some o)) "" sig ""','locals have no display name','C61','C09')
m('P12b','Pass1','anon_type_key','"$anon_" +:+ digest canon','"$anon_" +:+ digest ""','all anonymous types share one key','C52')
# --- Options
m('T01','Options','make_options','driver_set (fl_skip_implementations f)','driver_set (fl_skip_tests f)','--skip-tests also skips implementations','C60')
m('T02','Options','make_options','(match fl_patterns f with [] => ["./..."] | l => l end)','(fl_patterns f)','no default pattern','C60')
m('T03','Options','make_options','(given (fl_repository_remote f) default_repository_remote) (given (fl_module_path f) "")','default_repository_remote (given (fl_module_path f) "")','--repository-remote ignored','C60')
m('T04','Options','make_options','(given (fl_module_version f) version)','version','--module-version ignored','C60')
m('T05','Options','make_options','match path_abs (given (fl_module_root f) default_module_root) with','match path_abs default_module_root with','--module-root ignored','C60')
m('T06','Options','driver_set','negb (String.eqb d "off")','true','GOPACKAGESDRIVER=off counts as a driver','C60')
m('T07','Options','default_go_version','Ok ("go" +:+ v)','Ok v','go prefix lost','C60')
m('T08','Options','path_abs','Some d => Some (path_join d p) |','Some d => Some p |','relative module root not made absolute','C60')
m('T09','Options','make_options','(fl_skip_tests f)\n','false\n','--skip-tests ignored','C60')
m('T10','Options','make_options','(mc_gomod mc (path_join root "go.mod"))','(mc_gomod mc "go.mod")','go.mod of the working directory read','C60')
# --- Signature
m('G01','Signature','relative_qualifier','then "" else hp_name other','then hp_name other else ""','qualifier inverted','C62','C51')
m('G02','Signature','write','"chan<- " +:+ write false t','"<-chan " +:+ write false t','send-only channels shown as receive-only','C62')
m('G03','Signature','write','if is_recv_chan t then "chan (" +:+ write false t +:+ ")" else "chan " +:+ write false t','"chan " +:+ write false t','chan (<-chan T) ambiguous','C62')
m('G04','Signature','write','(if x.1 then "~" else "")','""','~ lost in unions','C62')
m('G05','Signature','write','| HSlice e => "..." +:+ write false e','| HSlice e => write false e','variadic dots lost','C62')
m('G06','Signature','object_string','| HVar true t => "field " +:+ name','| HVar true t => "var " +:+ name','fields labelled var','C62','C51')
m('G07','Signature','type_string_for_object','object_string quote qual o +:+ " = " +:+ v','object_string quote qual o','constant values not shown','C62')
m('G08','Signature','format_type_param_list','type_string quote hp_path g.2','type_string quote hp_name g.2','constraints qualified by package name instead of path','C62')
m('G09','Signature','expand_tabs','then indent +:+ expand_tabs r','then expand_tabs r','indentation lost','C62')
m('G10','Signature','expand_type_expr','| Some formatted => trim_prefix formatted "type _ "','| Some formatted => formatted','type _ prefix kept','C62')
m('G11','Signature','format_alias_declaration','" = " +:+ expand_type_expr pkg rhs','" " +:+ expand_type_expr pkg rhs','alias shown as definition','C62')
m('G12','Signature','local_signature','object_string quote (λ _, "") o','object_string quote hp_path o','locals qualified by path','C62')
m('G13','Signature','write','(if f.1.1.2 then "" else f.1.1.1 +:+ " ")','(if f.1.1.2 then f.1.1.1 +:+ " " else "")','names of embedded fields shown, others dropped','C62')
# --- Url
m('W01','Url','path_char','"-_.~$&+,/:;=@"','"-_.~$&+,/:;=@%"','percent not escaped','C65')
m('W02','Url','upper_hex','chr (55 + n)','chr (54 + n)','wrong hexadecimal digits','C65')
m('W03','Url','file_url','(if String.eqb p "" then "" else "//")','""','no slashes in the URL','C65')
m('W04','Url','path_char','"-_.~$&+,/:;=@"','"-_.~$&+,/:;=@?"','question mark not escaped','C65')
m('W05','Url','index_metadata','Meta (file_url (io_module_root o))','Meta (file_url (io_module_path o))','project root is the module path','C65','C64')
# --- Program
m('X01','Program','program_run','(io_skip_impls i) (index_metadata (su_tool S) i)','false (index_metadata (su_tool S) i)','--skip-implementations ignored','C64')
m('X02','Program','program_run','(io_module_root i) (io_module_version i)','(io_module_path i) (io_module_version i)','documents relative to the module path','C64')
m('X03','Program','scip_go','(index_cmd (su_sys S) (su_noise S) (Some e) (λ _, ([], Returned None)) output t)','(index_cmd (su_sys S) (su_noise S) None (λ _, ([], Returned None)) output t)','an error in the options is success','C64')
m('X04','Program','loads','loads o w bp answer h (LoadFailed e)','loads o w bp answer h (LoadOk ∅ ∅)','load failure gives an empty index','C64')
m('X05','Program','program_run','it_search it) h proj all','it_search it) h all proj','search has project and dependencies swapped','C64')
# --- Pass1: nested types, embedded fields, scopes
m('P20','Pass1','vv','Ev (v_scope st ++ [Desc (id_name i) Term]) (Some n) i (node_pos t)','Ev (v_scope st ++ [Desc (id_name i) Term]) (Some n) i (id_pos i)','(fix of the code: embedded fields of anonymous structs registered at the identifier; control)','C63')
m('P21','Pass1','tv','tv ANON iface cur sc k ++ tv ANON iface cur sc v','tv ANON iface cur sc v','members of structs in map keys not declared','C63','C52')
m('P22','Pass1','tv','NArrayType _ _ e => tv ANON iface cur sc e\n        | NStarExpr _ x => tv ANON','NArrayType _ _ e => []\n        | NStarExpr _ x => tv ANON','members of structs in slices not declared','C63','C52')
m('P23','Pass1','vv','| NArrayType _ _ e => vv ANON e st\n','| NArrayType _ _ e => (st, [])\n','members of structs in slices of variables not declared','C63','C52')
m('P24','Pass1','vv','else let \'(st\', e) := vv WALK f (v_push st (Desc key Type_)) in (v_pop st\', e)','else let \'(st\', e) := vv WALK f st in (st\', e)','anonymous key left out of the scope in variables','C63','C52')
m('P25','Pass1','spec_scope_name','show_Z (pos_line p) +:+ "-" +:+ show_Z (pos_col p)','show_Z (pos_line p)','two specs on one line share a scope','C63','C17')
m('P26','Pass1','vtype_action_of','| NInterfaceType _ _ _ | NStructType _ _ _ => VWalk','| NStructType _ _ _ => VWalk','interfaces abort the spec','C17','C63')
m('P27','Pass1','iface_method_events','map (λ i, Ev (sc ++ [Desc (id_name i) Method]) (Some f) i (id_pos i)) names','map (λ i, Ev (sc ++ [Desc (id_name i) Term]) (Some f) i (id_pos i)) names','methods of interface results are terms','C63','C05')
m('P28','Pass1','fv','NFuncType _ _ _ rs => fv sc rs','NFuncType _ _ ps _ => fv sc ps','parameters visited instead of results','C63','C05')
m('P29','Pass1','receiver_type_name','| Some (NFieldList (NField _ _ _ t :: _)) => base_type_name t','| Some (NFieldList (NField _ _ (_ :: _) t :: _)) => base_type_name t','methods with unnamed receivers are functions','C05','C07')
m('P30','Pass1','tv','| NTypeSpec _ _ _ (NInterfaceType _ _ _) => true','| NTypeSpec _ _ _ (NInterfaceType _ _ _) => false','embedded interfaces become fields','C05','C17')
m('P31','Pass1','vv','| VAR | CONST => vvs specs (VState (Some n) (v_scope st))','| VAR | CONST => vvs specs (VState (v_cur st) (v_scope st))','group comment of var blocks lost','C19')
m('P32','Pass1','package_events','(map (file_events (p_path pkg)) (p_syntax pkg))','(map (file_events (p_name pkg)) (p_syntax pkg))','declared under the package name','C05','C29')
# --- Pass2
m('Q20','Pass2','visits','| Some sym => [VQual i o sym; VIdent sel]','| Some sym => [VQual i o sym]','members of packages not referenced','C13')
m('Q21','Pass2','visits','| NTypeSpec _ nm tps t => VIdent nm :: vs tps ++ vs t','| NTypeSpec _ nm tps t => VIdent nm :: vs t','type parameters not visited','C13')
m('Q22','Pass2','import_occurrences','(String.eqb (id_name i) "." || String.eqb (id_name i) "_")','(String.eqb (id_name i) "_")','dot imports get a name occurrence','C15')
m('Q23','Pass2','import_occurrences','(p_path imported) true) false]','(p_name imported) true) false]','import range has the length of the name','C15','C14')
m('Q24','Pass2','visit_ref','(is_doc_deprecated (i_documentation info))','false','uses of deprecated symbols carry no diagnostic','C18')
m('Q25','Pass2','visit_def','(is_deprecated (o_pos def))','false','definitions of deprecated symbols carry no diagnostic','C18')
m('Q26','Pass2','enclosing_range','if Nat.eqb (id_ptr nm) (id_ptr i)','if true','every definition in a function has its range','C12')
m('Q27','Pass2','step','let! st\' := visit_def st i in visit_ref st\' i','visit_def st i','uses not recorded','C13')
m('Q28','Pass2','visit_def','match get_symbol g pkg (o_pos def) with','match (None : option string) with','global table not consulted (in-package test variants become locals)','C09','C11','C24')
m('Q29','Pass2','step','then Ok st\n','then visit_def st i\n','blank identifiers defined','C13','C09')
m('Q30','Pass2','to_document','map (λ l, local_info objstr l.2) lorder','[]','locals not described','C10')
# --- Impls
m('J10','Impls','passes','negb (d_unexported i && negb (String.eqb (d_pkg t) (d_pkg i)))','negb (d_unexported i)','interfaces with unexported methods never implemented','C32','C34','C33')
m('J11','Impls','has_unexported_methods','negb (is_exported (o_name m))','is_exported (o_name m)','exported taken for unexported','C32','C33')
m('J12','Impls','intuitive_method_set','(mset (TPointer t))','(mset t)','pointer methods ignored','C32','C33','C34')
m('J13','Impls','extract_def','negb (package_level p o)','package_level p o','only local types searched','C34','C33')
m('J14','Impls','extract_object','negb (is_type_name o && is_exported (o_name o))','negb (is_type_name o)','unexported remote types searched','C35','C33')
m('J15','Impls','remote_packages','proj !! kv.1 = None','proj !! kv.1 ≠ None','remote packages are the project','C35','C34')
m('J16','Impls','add_implementation_relationships','find_implementations o 2 (x_concretes r) (x_ifaces l) m n','find_implementations o 2 (x_concretes r) (x_ifaces r) m n','remote types matched with remote interfaces','C35','C34')
m('J17','Impls','add_implementation_relationships','(size (x_concretes l) * 2 + size (x_concretes r))','(size (x_concretes l) + size (x_concretes r))','progress total too small','C36','C41')
m('J18','Impls','implementation_of','Rel s false true false false','Rel s true false false false','is_reference instead of is_implementation','C34')
m('J19','Impls','classify','(<[symbol := d]> (x_ifaces st)) (x_concretes st) new k\n            else','(x_ifaces st) (<[symbol := d]> (x_concretes st)) new k\n            else','interfaces treated as concrete types','C32','C34')
m('J20','Impls','method_symbol','(<[obj_Id m := (c, i_symbol info)]> ms, (new, rk.2))','(<[o_name m := (c, i_symbol info)]> ms, (new, rk.2))','methods keyed by bare name','C34','C33')
m('J21','Impls','extract_package','if String.eqb (p_name p) "builtin" then Ok st\n    else','','builtin searched (panics on the type any?)','C36','C33')
m('J22','Impls','upd_cell','alter (with_rels f) pos pt.2','alter (with_rels f) (pos + 1)%Z pt.2','relationships added to another symbol','C34')
