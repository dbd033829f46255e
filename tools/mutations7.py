MUTATIONS = []
def m(id, file, d, old, new, claim, *breaks):
    MUTATIONS.append({'id': id, 'file': file, 'def': d, 'old': old, 'new': new, 'claim': claim, 'breaks': list(breaks)})
m('A701','Loader','skips','Nat.leb (nfiles g) n','Nat.ltb (nfiles g) n','variants with equally many files replace each other','C27','C79')
m('A702','Loader','lstep','(LState (<[p := g\']> h) (<[p_path g\' := p]> t) (order ++ st))','(LState (<[p := g\']> h) (<[p_path g := p]> t) (order ++ st))','table keyed by the path before normalisation','C27','C79')
m('A703','Loader','lstep','(LState (<[p := g\']> h) (<[p_path g\' := p]> t) (order ++ st))','(LState (<[p := g\']> h) (<[p_path g\' := p]> t) st)','imports not followed','C26')
m('A704','Loader','load_loop','load_loop o w h1 t1 (<[p_path g := q]> pj) ps h2 t2 pj2 →','load_loop o w h1 t1 (<[p_path g := p]> pj) ps h2 t2 pj2 →','project table keeps the root, not the recorded variant','C27','C26')
m('A705','Index','index','if skip_impls then Ok (Some (g, k, []))','if negb skip_impls then Ok (Some (g, k, []))','flag inverted','C76','C64')
m('A706','Program','program_run','(io_skip_impls i) (index_metadata (su_tool S) i) ld','false (index_metadata (su_tool S) i) ld','--skip-implementations ignored','C76')
m('A707','Program','program_run','(it_proj it) (it_all it) (it_proj2 it)','(it_all it) (it_proj it) (it_proj2 it)','orders swapped','C64','C79')
m('A708','Program','program_run','h proj all','h all proj','search gets the tables in the wrong order','C64','C33')
m('A709','Index','index','write_documents g docs [MMeta meta] 0 k (items_of (packages_of h proj porder2))','write_documents g docs [MMeta meta] 0 k (items_of (packages_of h all porder2))','documents of dependencies too','C01','C64')
m('A710','Index','write_documents','| None => write_documents g docs sofar n k items','| None => (sofar, Returned None, k)','a file without document ends the run','C01')
m('A711','Index','package_occurrence','role_definition [] []','role_read_access [] []','package clause is a reference','C11')
m('A712','Index','package_info','KPackage (p_name p) (Some ("package " +:+ p_name p))','KPackage (p_path p) (Some ("package " +:+ p_name p))','display name of a package is its path','C20','C61')
m('A713','Loader','normalize_version','else with_version m "."','else with_version m (io_module_version o)','unrelated modules get the version of the project','C25')
m('A714','Loader','normalize_version','is_nested_dir (m_dir m) (io_module_root o)','is_nested_dir (io_module_root o) (m_dir m)','arguments swapped','C25','C44')
m('A715','Loader','follow_replace','if String.eqb (m_version r) "" then with_version r (io_module_version o) else r','r','replaced local modules keep no version','C25')
m('A716','Loader','resolve_local','if String.eqb version "" then m else with_version m version','with_version m version','an empty version of go.mod overwrites','C25')
m('A717','Output','print_text','(String.append (number done) (String "/" (String.append (number total) "]")))','(String.append (number total) (String "/" (String.append (number done) "]")))','done and total swapped','C41')
m('A718','Output','step','(State m c wk k wg w d t (MFinal 1) v (o ++ [PProgress n n]))','(State m c wk k wg w d t (MFinal 1) v (o ++ [PProgress c n]))','last line shows the counter','C41')
m('A719','Output','step','(match lv with Verbose => o ++ [PElapsed] | _ => o end)','(match lv with Verbose => o | _ => o ++ [PElapsed] end)','time shown at the wrong level','C41')
