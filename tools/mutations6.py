MUTATIONS = []
def m(id, file, d, old, new, claim, *breaks):
    MUTATIONS.append({'id': id, 'file': file, 'def': d, 'old': old, 'new': new, 'claim': claim, 'breaks': list(breaks)})
# --- redone after tightening
m('Z05b','Source','unpack','(dir_line alt + d)','(dir_line alt)','every line after a directive is the directive\'s','C69')
m('Z60','Source','active','if Z.leb (dir_off d) off then active l\' off (Some d) else acc','if Z.leb (dir_off d) off then Some d else acc','the first directive of a file stays in force','C69')
m('Z61','Source','unpack','if Z.eqb d 0 then dir_col alt + (off - dir_off alt) else column','column','column of a directive ignored','C69')
m('E21b','Env','infer_repo','if ok then parse_remote url else None','parse_remote url','git\'s error text parsed as a URL','C46','C60')
m('W20b','Output','counts','match a with Count => true | _ => false end','false','progress never counts','C41')
m('W23b','Output','with_progress','| Quiet => (fn, inner)','| Quiet => (fn, [String.append name (String "010" "")] ++ inner)','quiet prints','C55')
m('F21b','Fingerprint','encode_panics','| TUnion _ => true','| TUnion _ => false','unions encode to the empty text','C31')
m('F14b','Fingerprint','encode_panics','| TBasic k _ => is_untyped k','| TBasic k _ => false','untyped constants no longer panic (print empty text)','C31','C30')
m('K06b','Cli','cli_writer','| Some e => Some ("failed to write to scip index file: " +:+ e)\n              | None => None','| Some e => None\n              | None => None','write errors ignored','C40')
m('I18b','Index','imports_of','String.eqb e.1 path','true','every import resolves to the first one','C29','C15','C65')
m('R10b','Proto','f_str','if String.eqb s "" then [] else [(n, WBytes s)]','if String.eqb s "" then [] else [(n, WBytes (str_take 100 s))]','long strings truncated','C39')
# --- C75
m('Y01','Pass2','create_local','(<[pos := Local sym o]> (f_locals st)) (f_occs st) (f_func st)','(<[(pos + 1)%Z := Local sym o]> (f_locals st)) (f_occs st) (f_func st)','locals recorded at the wrong position','C09','C13','C75')
m('Y02','Pass1','tv','map (λ i, Ev (sc ++ [Desc (id_name i) Term]) (Some n) i (id_pos i))\n                     (ident_of_type_expr t)','map (λ i, Ev (sc ++ [Desc (id_name i) Term]) (Some n) i (node_pos t))\n                     (ident_of_type_expr t)','embedded fields registered at the position of their type','C08','C12','C63')
m('Y03','Pass2','to_document','map snd (symbols_for_file fs file torder) ++ map (λ l, local_info objstr l.2) lorder','map snd torder ++ map (λ l, local_info objstr l.2) lorder','every document describes the whole package','C10','C75')
m('Y04','Lookup','symbols_for_file','fs_file fs e.1 = Some file','fs_file fs e.1 ≠ Some file','documents describe the symbols of other files','C10','C75')
# --- Paths
m('Y10','Paths','path_join','else clean (a +:+ "/" +:+ b)','else a +:+ "/" +:+ b','joined paths not cleaned','C60','C44')
m('Y11','Paths','path_dir','clean (str_take (S i) p)','clean p','parent directory is the directory','C60')
m('Y12','Paths','is_local','negb (String.eqb p ".." || has_prefix p "../")','negb (String.eqb p ".." || has_prefix p "..")','..x is not local','C25','C44')
m('Y13','Paths','cmd_rel','Some r => r | None => "." end','Some r => r | None => wd end','error gives the working directory','C60')
m('Y14','Paths','clean_step','String.eqb c "" || String.eqb c "."','String.eqb c ""','. kept','C44')
# --- Env
m('Y20','Env','unescape_path','Some (String (ascii_of_N (16 * h + l)) t)','Some (String (ascii_of_N (16 * l + h)) t)','hex digits swapped','C46','C73')
m('Y21','Env','valid_optional_port','str_forallb is_digit r','true','any port accepted','C46')
m('Y22','Env','command_run','(trim_space (cmd_out c), cmd_ok c)','(cmd_out c, cmd_ok c)','output of commands not trimmed','C46','C47')
m('Y23','Env','slice_to','Nat.leb n (slen s)','true','short commits accepted','C47')
m('Y24','Env','durations','60000000000; 3600000000000','3600000000000','minutes dropped','C48')
m('Y25','Env','log_levels','[4; 0; -4]','[8; 0; -4]','default level is Error','C49','C55')
m('Y26','Env','get_scheme_from','if first then None (* "missing protocol scheme" *) else Some (Some ("", r))','if first then Some None else Some (Some ("", r))',':x parsed as a path','C46')
m('Y27','Env','hostname','if valid_optional_port (str_drop i host) then str_take i host else host','host','port kept in the name','C46')
m('Y28','Env','url_parse','let rest := (cut "?" rest).1 in','let rest := rest in','query kept in the path','C46')
# --- Proto
m('Y30','Proto','second_ok','implb (Z.eqb c 237) (Z.ltb d 160)','true','surrogates accepted as UTF-8','C66','C39')
m('Y31','Proto','f_packed','[(n, WBytes (String.concat "" (map (λ z, varint (int32_wire z)) l)))]','[(n, WBytes (String.concat "" (map (λ z, varint z) l)))]','negative numbers not sign-extended','C39')
m('Y32','Proto','put_meta','f_str 3 (md_root m) ++ f_num 4 1','f_num 4 1','project root not written','C39')
m('Y33','Proto','put_tool','f_rep 3 (md_args m)','[]','arguments not written','C39')
m('Y34','Proto','info_utf8','&& valid_utf8 (i_display_name i) &&','&&','invalid display names written','C39','C66')
m('Y35','Proto','doc_utf8','forallb (λ o, valid_utf8 (oc_symbol o)) (d_occs d) && ','','invalid occurrence symbols written','C39','C66')
m('Y36','Proto','put_diag','f_packed 5 [2]','f_packed 5 [1]','deprecated shown as unnecessary','C39')
# --- Loader
m('Y40','Loader','files_of','nfiles <$> h !! q','Some 0','every variant replaces the recorded one','C27')
m('Y41','Loader','with_path','GPkg (p_ptr p) path (p_name p)','GPkg (p_ptr p) path path','name replaced by the path','C28','C61')
m('Y42','Loader','with_version','GMod (m_path m) v (m_dir m)','GMod (m_path m) v ""','directory of the module lost','C25')
m('Y43','Loader','lstep','order ≡ₚ map snd (p_imports g\') →','order = [] →','imports never followed','C26')
# --- Index
m('Y50','Index','stable_sort','foldr (insert_by key) [] l','foldl (λ acc x, insert_by key x acc) [] l','doc comments of equal relevance reversed','C18','C61')
m('Y51','Index','g_set','(q, pset t pos i)','(q, ∅)','package entry wipes the table','C10','C34','C54')
m('Y52','Index','index_visit_packages','res_fold (visit_project_package root) (∅, g) (packages_of proj porder)','res_fold (visit_project_package root) (∅, g) (packages_of all porder)','dependencies indexed as project packages','C23')
m('Y53','Index','file_doc','NFile _ _ d _ _ => d','NFile _ _ d i _ => id_name i','package documentation is its name','C61','C18')
# --- Impls
m('Y60','Impls','mset_lookup','String.eqb (obj_Id x) (obj_Id m)','String.eqb (o_name x) (o_name m)','methods of other packages confused','C30','C33')
m('Y61','Impls','implements','(mset v)) ms\n','(mset (TPointer v))) ms\n','pointer methods count for values','C30')
m('Y62','Impls','method_mask','N.lor mask','N.land mask','mask always empty','(none: the filter only skips checks)')
m('Y63','Impls','extract_object','if negb (is_type_name o && is_exported (o_name o)) then Ok st','if negb (is_type_name o) then Ok st','unexported types of dependencies','C33','C30')
m('Y64','Impls','extract_package','if String.eqb (p_name p) "builtin" then Ok st','if false then Ok st','builtin searched (same: it has no types)','(none: the builtin package has neither types nor syntax)')
m('Y65','Impls','with_rels','(f (i_relationships i)) (i_kind i)','(f []) (i_kind i)','earlier relationships dropped','C30','C32')
m('Y66','Impls','extract_def','CTab (p_path p) (o_pos o)','CTab (p_path p) (o_pos o + 1)','relationships added to the next symbol','C30','C35')
# --- Signature, Cli, Output
m('Y70','Signature','prefix_of','else qf p +:+ "."','else qf p','no dot after the package name','C21')
m('Y71','Signature','label','then "" else name +:+ " ".','then "" else name.','parameter names glued to types','C21')
m('Y72','Signature','format_go_decl','trim_prefix formatted ("package p" +:+ nl +:+ nl)','formatted','package clause shown','C21')
m('Y73','Signature','tparam_list','String.concat ", " p.1 +:+ " " +:+ write false p.2) tps) +:+ "]"\n    end.\nEnd Printer','String.concat ", " p.1) tps) +:+ "]"\n    end.\nEnd Printer','constraints not shown','C21')
m('Y80','Cli','bytes_of_messages','default "" (marshal m)) l).','default "" (marshal m)) (rev l)).','messages written backwards','C40')
m('Y81','Cli','killed_after','str_take n (bytes_of_messages','str_drop n (bytes_of_messages','(a different crash)','C40')
m('Y82','Output','level_of','if Z.ltb 4 l then Quiet','if Z.leb 4 l then Quiet','warnings level is quiet','C41','C49','C55')
m('Y83','Output','print_text','(String.append (number done) (String "/" (String.append (number total) "]")))','(String.append (number total) (String "/" (String.append (number done) "]")))','done and total swapped','C41')
m('Y84','Url','escaped_path','if String.eqb p "*" then "*" else path_escape p','path_escape p','* escaped','C73')
