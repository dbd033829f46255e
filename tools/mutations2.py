MUTATIONS = []
def m(id, file, d, old, new, claim, *breaks):
    MUTATIONS.append({'id': id, 'file': file, 'def': d, 'old': old, 'new': new, 'claim': claim, 'breaks': list(breaks)})
# --- Semver / Paths
m('V01','Semver','parse_int','negb (Nat.eqb (slen p.1) 1))%bool then None','negb (Nat.eqb (slen p.1) 2))%bool then None','leading zeros accepted in versions','C47','C25')
m('V02','Semver','pseudo_version_rev','last_index "-" v with Some j => Some (str_drop (S j) v)','last_index "-" v with Some j => Some (str_drop j v)','revision keeps the dash','C25')
m('V03','Semver','pseudo_version_rev','let v := trim_suffix v (semver_build v) in','let v := v in','revision keeps +incompatible','C25')
m('V04','Semver','is_pseudo_version','Nat.leb 2 (count_char "-" v)','Nat.leb 3 (count_char "-" v)','v0.0.0 pseudo-versions not recognised','C25')
m('V05','Semver','pseudo_re','(RRep 14 (RCls is_digit))','(RRep 12 (RCls is_digit))','timestamps of the wrong length','C25')
m('V06','Semver','dot_loop','if (String.eqb cur "" || bad cur)%bool then None else Some ("", v)','if (bad cur)%bool then None else Some ("", v)','empty prerelease identifiers accepted','C47','C25')
m('H01','Paths','clean_step','if String.eqb top ".." then c :: acc else rest','rest','../.. collapses','C44')
m('H02','Paths','strip_common','if String.eqb x y then strip_common b\' t\' else (b, t)','if String.eqb x y then (b\', t\') else (b, t)','only one common element stripped','C44')
m('H03','Paths','path_rel','Some (join "/" (map (λ _, "..") rb ++ rt))\n    | _, _','Some (join "/" rt)\n    | _, _','no .. for the remaining base elements','C44')
m('H04','Paths','doc_relative_path','path_rel module_root abs','path_rel abs module_root','arguments swapped','C44','C42')
m('H05','Paths','search_loop','if has_prefix path root then Some "."','if String.eqb path root then Some "."','search stops only at the exact root (the intended code)','C45')
m('H06','Paths','search_loop','| StatFound => Some (cmd_rel wd path)','| StatFound => Some path','absolute path returned','C45')
m('H07','Paths','is_nested_dir','match path_rel b a with Some rel => is_local rel | None => false end\n    | None','false\n    | None','only one direction of nesting','C25')
# --- Loader
m('O01','Loader','follow_replace','with_version r (io_module_version o) else r','with_version r (io_module_version o) else m','replacement with a version ignored','C25')
m('O02','Loader','follow_replace','then with_version r (io_module_version o) else r','then r else r','unversioned replacement keeps an empty version','C25')
m('O03','Loader','resolve_local','let m := with_mpath m path in','let m := m in','local replacement keeps its ./ path','C25')
m('O04','Loader','normalize_version','else with_version m "."','else m','unknown version left empty','C25')
m('O05','Loader','normalize_version','with_version m (trim_suffix v (semver_build v))','m','+incompatible kept','C25')
m('O06','Loader','normalize_package','(trim_prefix (p_path p) "std/")','(p_path p)','std/ prefix kept','C28')
m('O07','Loader','normalize_package','(if String.eqb (io_module_path o) "" then "." else io_module_path o)','(io_module_path o)','driver with no module path gives an empty path','C28','C25')
m('O08','Loader','is_standard_lib','| Some m => String.eqb (m_path m) "std"','| Some m => false','module std not recognised','C28')
m('O09','Loader','skips','Nat.leb (nfiles g) n','Nat.ltb (nfiles g) n','equal variants revisited (may not terminate on cycles)','C27')
m('O10','Loader','skips','Nat.leb (nfiles g) n','true','larger variant skipped','C27','C26')
m('O11','Loader','lstep','(<[p := g\']> h) (<[p_path g\' := p]> t) (order ++ st)','(<[p := g\']> h) (<[p_path g\' := p]> t) st','imports not followed','C26')
m('O12','Loader','lstep','(<[p := g\']> h) (<[p_path g\' := p]> t) (order ++ st)','h (<[p_path g\' := p]> t) (order ++ st)','normalised module not stored','C25','C26','C29')
m('O13','Loader','load_loop','load_loop o w h1 t1 (<[p_path g := q]> pj) ps h2 t2 pj2','load_loop o w h1 t1 pj ps h2 t2 pj2','project packages not recorded','C26')
m('O14','Loader','with_default_version','(if String.eqb (io_module_version o) "" then "." else io_module_version o)\n        (io_module_path o)','(io_module_version o)\n        (io_module_path o)','module version not defaulted','C25')
m('O15','Loader','sorted_keys','merge_sort str_le order','order','packages listed in map order','C43')
m('O16','Loader','normalize_version','then with_version m (io_module_version o)\n    else','then with_version m (io_go_version o)\n    else','own modules get the Go version','C25')
m('O17','Loader','has_same_repo_root','| Some ra, Some rb => String.eqb ra rb\n       | _, _ => false','| Some ra, Some rb => String.eqb ra rb\n       | _, _ => true','unknown repository roots considered equal','C25')
# --- Index
m('I01','Index','file_relevance','then 0\n  else if String.eqb (trim_suffix','then 1\n  else if String.eqb (trim_suffix','doc.go not preferred','C20')
m('I02','Index','insert_by','if Nat.leb (key x) (key y) then x :: l else','if Nat.ltb (key x) (key y) then x :: l else','sort not stable','C20')
m('I03','Index','find_package_docs','(List.filter file_has_doc (p_syntax p))','(p_syntax p)','files without docs contribute','C20')
m('I04','Index','package_info','(find_package_docs fs p) [] KPackage','[] [] KPackage','package docs dropped','C20')
m('I05','Index','set_package_occurrence','(Some (package_occurrence g p f))','(sd_occ d)','package clause occurrence not set','C20','C13')
m('I06','Index','visit_project_package','g_set st.2 p (id_pos (file_ident first)) (package_info st.2 p)','st.2','package never described','C20')
m('I07','Index','add_document','<[n := SDoc (doc_relative_path root n) None]> docs','docs','documents not created','C42')
m('I08','Index','write_all','write_all w (sofar ++ [m]) l','write_all w (m :: sofar) l','external symbols written in reverse','C38')
m('I09','Index','write_all','| Some e => (sofar, Some e)','| Some e => write_all w sofar l','write errors of external symbols ignored','C38')
m('I10','Index','write_documents','| Some e => (sofar, Returned (Some e), k\')','| Some e => (sofar, Returned None, k\')','write error of a document reported as success','C38')
m('I11','Index','write_documents','(sofar ++ [MDoc doc]) (S n) k\' items','(sofar ++ [MDoc doc]) (S n) k items','(caches dropped: harmless by C23; control)','C23')
m('I12','Index','index','then Ok (Some (g, k, [])) else impl g k','then impl g k else Ok (Some (g, k, []))','skip flag inverted','C38','C34')
m('I13','Index','index','match write_documents g docs [MMeta meta] 0 k','match write_documents g docs [] 0 k','metadata lost','C38')
m('I14','Index','index','| LoadFailed e => ([MMeta meta], Returned (Some e))','| LoadFailed e => ([MMeta meta], Returned None)','load failure reported as success','C38')
m('I15','Index','package_occurrence','role_definition [] []','role_read_access [] []','package clause is a reference','C20','C13')
m('I16','Index','items_of','map (λ f, (p, f)) (p_syntax p)','map (λ f, (p, f)) (tail (p_syntax p))','first file of each package skipped','C42','C38')
m('I17','Index','index','(items_of (packages_of h proj porder2))','(items_of (packages_of h all porder2))','documents of dependencies','C38','C42')
m('I18','Index','imports_of','String.eqb e.1 path','true','every import resolves to the first one','C29','C15')
m('I19','Index','list_missing','with Some _ => acc | None => acc ++ [n] end','with Some _ => acc ++ [n] | None => acc end','lists the documents that exist','C42')
m('I20','Index','set_pkg_symbols','let! g\' := set_pkg_symbol g p in set_pkg_symbols g\' h all ks','let! g\' := set_pkg_symbol g p in Ok g\'','only the first package gets its symbol','C29')
# --- Env
m('E01','Env','parse_remote','[trim_prefix a "git@"; trim_suffix b ".git"]','[trim_prefix a "git@"; b]','.git kept in scp remotes','C46')
m('E02','Env','parse_remote_url','hostname host +:+ trim_suffix path ".git"','host +:+ trim_suffix path ".git"','port kept','C46')
m('E03','Env','parse_authority','parse_host (str_drop (S i) a)','parse_host a','user kept in the host','C46')
m('E04','Env','infer_module_version','List.find semver_is_valid lines','List.find (λ _, true) lines','first tag instead of first version tag','C47')
m('E05','Env','infer_module_version','slice_to commit 12','slice_to commit 8','short commit','C47')
m('E06','Env','infer_module_version','if negb ok then Ok None\n  else if negb (String.eqb tags "") then','if negb (String.eqb tags "") then','git failure ignored','C47')
m('E07','Env','module_name','if negb (String.eqb in_name "") then finish in_name false\n  else match gm with','match gm with','explicit name ignored','C48')
m('E08','Env','module_name','| Parsed (Some path) => finish path false','| Parsed (Some path) => finish path true','every go.mod module considered the standard library','C48')
m('E09','Env','resolve_module_name','trim_prefix name r | None => ""','name | None => ""','suffix not relative to the root','C48')
m('E10','Env','human_elapsed','(if 100 <? big / small then small * 10 else small)','(small * 100)','durations rounded too coarsely','C49')
m('E11','Env','unit_count','if d <=? elapsed then S','if d <? elapsed then S','boundary of the units','C49')
m('E12','Env','get_log_level','if no_output then Ok 8','if no_output then Ok 4','quiet still shows warnings','C50')
m('E13','Env','get_log_level','Z.of_nat (length log_levels) - 1 else verbosity','Z.of_nat (length log_levels) else verbosity','high verbosity panics','C50')
# --- Output
m('U01','Output','step_quiet_wait','step (State m c wk k (Some vw) w d t MWait v o) (State m c wk k (Some vw) w d t MReturned (v `max` vw) o)','step (State m c wk k vw w d t MWait v o) (State m c wk k vw w d t MReturned v o)','quiet run does not wait for the worker','C41')
m('U02','Output','step_select_done','step (State m c wk k wg w (Some vd) t MSelect v o) (State m c wk k wg w (Some vd) t (MFinal 0) (v `max` vd) o)','step (State m c wk k wg w vd t MSelect v o) (State m c wk k wg w vd t (MFinal 0) v o)','returns without receiving from the done channel','C41')
m('U03','Output','step_worker_end','(State m c Ended k (Some k) w d t ms v o)','(State m c Ended k wg w d t ms v o)','worker never calls Done','C41')
m('U04','Output','step_final0','(o ++ [PProgress n n])','(o ++ [PProgress c n])','last line shows the counter','C41')
m('U05','Output','step_wait_wg','step (State m c wk k (Some vw) WaitWg d t ms v o)\n           (State m c wk k (Some vw) (CloseDone vw) d t ms v o)','step (State m c wk k (Some vw) WaitWg d t ms v o)\n           (State m c wk k (Some vw) WaiterEnded d t ms v o)','channel never closed','C41')
m('U06','Output','step_worker_end','| step_worker_end m c k wg w d t ms v o :\n      step (State m c (Running []) k wg w d t ms v o)','| step_worker_end m c k wg w d t ms v o rest :\n      step (State m c (Running rest) k wg w d t ms v o)','Done called before the work is finished','C41')
# --- Proto
m('R01','Proto','put_varint','if Z.ltb n 128 then String (byte n) ""','if Z.leb n 128 then String (byte n) ""','128 written as one byte','C39')
m('R02','Proto','put_field','| WBytes b => varint (f.1 * 8 + 2) +:+ varint (Z.of_nat (slen b)) +:+ b','| WBytes b => varint (f.1 * 8 + 2) +:+ b','no length prefix','C39')
m('R03','Proto','put_doc','f_rep 3 (map (λ i, put_fields (put_info i)) (d_symbols d)) ++ f_str 4 "go"','f_rep 2 (map (λ i, put_fields (put_info i)) (d_symbols d)) ++ f_str 4 "go"','symbols written in the occurrence field','C39')
m('R04','Proto','put_info','f_str 6 (i_display_name i)','f_str 6 (i_symbol i)','display name replaced','C39')
m('R05','Proto','marshal','| MExt x => if info_utf8 x then Some (put_fields [(3,','| MExt x => if info_utf8 x then Some (put_fields [(2,','external symbols written as documents','C39')
m('R06','Proto','marshal','| MDoc x => if doc_utf8 x then','| MDoc x => if true then','invalid UTF-8 written','C39')
m('R07','Proto','put_occ','f_num 3 (Z.of_nat (oc_roles o))','f_num 3 0','roles not written','C39')
m('R08','Proto','kind_number','KStruct => 49 | KInterface => 21','KStruct => 21 | KInterface => 21','two kinds with one number','C39')
m('R09','Proto','int32_wire','z mod 2^64','z mod 2^32','negative ints (still 32 bits on reading; control)','C39')
m('R10','Proto','f_str','if String.eqb s "" then [] else [(n, WBytes s)]','if String.eqb s "" then [] else [(n, WBytes (str_take 100 s))]','long strings truncated','C39')
# --- Cli
m('K01','Cli','os_remove','| None => delete p t','| None => t','failed run does not remove the file','C40')
m('K02','Cli','index_cmd','| Returned None => (t, out, Exit 0 None)','| Returned None => (delete output t, out, Exit 0 None)','successful output removed','C40')
m('K03','Cli','index_cmd','out, Exit 1 (Some e))','out, Exit 0 (Some e))','exit code 0 on failure','C40')
m('K04','Cli','index_cmd','(if stat_regular (sy_stat s) t output then os_remove (sy_remove s) t output else t)','(os_remove (sy_remove s) t output)','special files removed','C40')
m('K05','Cli','index_cmd','let t := append_to t q (bytes_of_messages msgs) in','let t := t in','nothing written','C40')
m('K06','Cli','cli_writer','| Some e => Some ("failed to write to scip index file: " +:+ e)\n              | None => None','| Some e => None\n              | None => None','write errors ignored','C40')
m('K07','Cli','stdout_of','no n +:+ (default "" (marshal m) +:+ stdout_of no (S n) l)','no n +:+ stdout_of no (S n) l','index not printed','C55')
m('K08','Cli','os_create','| _ => inr (q, <[q := FReg ""]> t)','| _ => inr (q, <[p := FReg ""]> t)','link replaced instead of its target','C40')
m('K09','Cli','index_cmd','| Some e => (t, no O, Exit 1 (Some e))\n  | None','| Some e => (delete output t, no O, Exit 1 (Some e))\n  | None','early failure deletes an earlier index','C40')
# --- Quote / Fingerprint
m('F01','Quote','unescape','| "n"%char => Some (String (chr 10) "", r)','| "n"%char => Some (String (chr 13) "", r)','\\n decoded as carriage return','C51')
m('F02','Quote','unquote_body','(Ascii.eqb c dquote || Ascii.eqb c newline)%bool then None','(Ascii.eqb c dquote)%bool then None','newlines accepted in literals','C51')
m('F03','Fingerprint','print','TChan d e => "(chan " +:+ format_int (Z.of_nat d) +:+ " "','TChan d e => "(chan " +:+ " "','channel direction not printed','C31')
m('F04','Fingerprint','print','(if v then " v" else "")','""','variadic functions indistinguishable','C31')
m('F05','Fingerprint','print','" " +:+ quote u (fh_tag f) +:+ " "','" "','struct tags not part of the fingerprint','C31')
m('F06','Fingerprint','print','| TAlias _ r => print r','| TAlias tn r => tn_name tn','aliases printed by name','C30')
m('F07','Fingerprint','tricky','| TMap k v => (tricky k || tricky v)%bool','| TMap k v => tricky v','tricky map keys missed','C31','C30')
m('F08','Fingerprint','tricky','| TInterface (_ :: _) _ | TTypeParam _ _ => true\n    | TBasic _ _','| TTypeParam _ _ => true\n    | TInterface (_ :: _) _ | TBasic _ _','interfaces not tricky','C31')
m('F09','Fingerprint','print_field_name','if is_exported (fh_name f) then fh_name f\n    else','if false then fh_name f\n    else','exported fields qualified by package','C30')
m('F10','Fingerprint','print_tname','| Some p => "(qual " +:+ quote u p +:+ " " +:+ tn_name tn +:+ ")"','| Some p => tn_name tn','package not printed','C31')
m('F11','Fingerprint','basic_name','BInt32 => "rune"','BInt32 => "int64"','int32 and int64 confused','C31')
m('F12','Fingerprint','escaped_rune','if (Z.eqb n 34 || Z.eqb n 92)%bool','if (Z.eqb n 34)%bool','backslash not escaped in quotes','C31','C37')
m('F13','Fingerprint','uni','else if is_nil yd then PDone (false, st)','else if is_nil yd then PDone (true, st)','longer lists match shorter ones','C37')
m('F14','Fingerprint','encode_panics','| TBasic k _ => is_untyped k','| TBasic k _ => false','untyped constants no longer panic (print empty text)','C31','C30')
m('F15','Fingerprint','occurs','let^ c := index l j in PDone (Nat.eqb b c)','let^ c := index l j in PDone (negb (Nat.eqb b c))','occurs check inverted','C37')
# --- Impls
m('J01','Impls','passes','negb (Nat.ltb (d_count t) (d_count i))','negb (Nat.leb (d_count t) (d_count i))','types with exactly the methods of the interface filtered out','C32','C34')
m('J02','Impls','passes','N.eqb (N.land (d_mask t) (d_mask i)) (d_mask i)','N.eqb (N.land (d_mask t) (d_mask i)) (d_mask t)','mask test the wrong way round','C32')
m('J03','Impls','passes','(implements (d_named t) ms s || implements (TPointer (d_named t)) ms s)','(implements (d_named t) ms s)','pointer-receiver implementations lost','C32','C34')
m('J04','Impls','mask_bit','(N.shiftr sum 8)) sum) 63','(N.shiftr sum 8)) sum) 127','bit above 63 (uint64 overflow)','C32')
m('J05','Impls','find_implementations','let m := canon m (d_sym t) in','let m := m in','type relationships not canonicalised','C34')
m('J06','Impls','find_implementations','(add_rel (d_symbol i) m (d_sym t))','m','types get no relationship, only methods','C34')
m('J07','Impls','find_implementations','Some (c, _) => add_rel s m c | None => m end','Some (c, _) => m | None => m end','methods get no relationship','C34')
m('J08','Impls','gained','match i_relationships i with [] => None | _ => Some i end','Some i','all remote types emitted','C35')
m('J09','Impls','extract_object','if negb (is_type_name o && is_exported (o_name o)) then','if negb (is_type_name o) then','unexported dependency types become candidates','C36')
m('J10','Impls','extract_def','(match p_types p with Some _ => negb (package_level p o) | None => false end)','false','function-local types become candidates','C36')
m('J11','Impls','remote_packages','filter (λ kv : string * nat, proj !! kv.1 = None) all','all','project packages searched as dependencies too','C35','C36')
m('J12','Impls','classify','if is_interface env named then XState (<[symbol := d]> (x_ifaces st)) (x_concretes st) new k','if is_interface env named then XState (x_ifaces st) (<[symbol := d]> (x_concretes st)) new k','interfaces classified as concrete types','C36','C34')
m('J13','Impls','add_implementation_relationships','find_implementations o 2 (x_concretes r) (x_ifaces l) m n','find_implementations o 2 (x_concretes r) (x_ifaces r) m n','remote types compared with remote interfaces','C35','C34')
m('J14','Impls','add_implementation_relationships','find_implementations o 1 (x_concretes l) (x_ifaces r) m n','(m, n)','implementations of dependency interfaces not recorded','C34')
m('J15','Impls','intuitive_method_set','(mset (TPointer t))','(mset t)','pointer methods not in the method set','C36','C34')
m('J16','Impls','has_unexported_methods','negb (is_exported (o_name m))','is_exported (o_name m)','sealed test inverted','C33')
m('J17','Impls','identicalb','| TSig ps rs v => match unalias r with TSig ps\' rs\' v\' => (ids ps ps\' && ids rs rs\' && Bool.eqb v v\')%bool','| TSig ps rs v => match unalias r with TSig ps\' rs\' v\' => (ids ps ps\' && ids rs rs\')%bool','variadic signatures identical to slices','C32')
m('J18','Impls','extract_package','if String.eqb (p_name p) "builtin" then Ok st\n    else','','builtin package searched','C36')
m('J19','Impls','add_implementation_relationships','let total := (size (x_concretes l) * 2 + size (x_concretes r))%nat in','let total := (size (x_concretes l) + size (x_concretes r))%nat in','progress total wrong','C41')
m('J20','Impls','add_implementation_relationships','extract o h g (remote_packages all proj) (x_new l) (x_k l)','extract o h g (remote_packages all proj) [] (x_k l)','objects of the first extraction aliased by the second','C34','C35')
