#!/usr/bin/env python3
"""Run the Rocq model, in binary64 with the soft C library of SoftLibm.v, on the
developers' own numbers, and compare:

  fidelity.py tests   the numeric assertions of /repo/tests (about a minute)
  fidelity.py runs    whole runs against the result tables shipped in /repo (minutes each)

Nothing of /repo is executed: the configuration files, slope files and expected
values are read as text, the model is evaluated by vm_compute.  The compiled
theories are needed (build /verif/rocq first); scratch files go to a temporary
directory.  The last results are recorded in /verif/FIDELITY.md."""
import csv, json, math, os, re, subprocess, sys, tempfile

HERE = os.path.dirname(os.path.abspath(__file__))
THEORIES = os.path.join(HERE, '..', 'rocq', 'theories')
REPO = '/repo'
HEADER = '''From Coq Require Import ZArith List String.
From Flocq Require Import Core BinarySingleNaN.
From Verif Require Import Base Num Json Logger World Vesicle MeltVisc RelVisc Bubbles Terrain Lava Thermal Flux Integrator Factory Run JsonText FNum SoftLibm.
Import ListNotations.
#[local] Instance SF : Num f64 := FNum soft.
Definition show (x : f64) : Z * Z := match val x with B754_finite s m e _ => (if s then Z.neg m else Z.pos m, e)
  | B754_zero _ => (0,0)%Z | B754_infinity _ => (1,9999)%Z| _ => (0,9999)%Z end.
Definition showc (c : cell f64) := match c with CNum x => show x | CStr x => show x end.
Definition doc (s : string) : res (json f64) := match loads (fun _ => n_lit 0 1) s with Some j => Ok j | None => Err TypeError end.
'''

def cs(s):
    return '"' + s.replace('"', '""') + '"%string'

def lines_of(path):
    t = open(path, newline=None).read()          # universal newlines, as open() does
    l = t.split('\n')
    return l[:-1] if l[-1] == '' else l

def lit(x):
    """a Python literal, as the model writes it"""
    s = str(x)
    neg = s.startswith('-'); s = s.lstrip('-')
    mant, _, ex = s.partition('e')
    ip, _, fp = mant.partition('.')
    n, e = int((ip + fp) or '0'), (int(ex) if ex else 0) - len(fp)
    n = -n if neg else n
    return 'n_lit (%d) %d' % (n * 10 ** max(e, 0), 10 ** max(-e, 0))

def coq(text, timeout):
    d = tempfile.mkdtemp(prefix='fidelity')
    f = os.path.join(d, 'Fid.v')
    open(f, 'w').write(text)
    r = subprocess.run(['coqc', '-Q', THEORIES, 'Verif', 'Fid.v'], cwd=d, capture_output=True, text=True, timeout=timeout)
    if r.returncode:
        sys.exit(r.stdout[-2000:] + r.stderr[-3000:])
    return r.stdout

# ---------------------------------------------------------------- unit tests
def tests():
    out = [HEADER]
    names = {}
    for f in sorted(os.listdir(REPO + '/tests/resources')):
        if f.endswith('.json'):
            v = 'j_' + re.sub(r'\W', '_', f[:-5].replace('input_parameters_', ''))
            names[v] = f
            out.append('Definition %s := doc %s.' % (v, cs(open(REPO + '/tests/resources/' + f).read())))
    out.append('Definition dem : list string := [%s].' % ';\n'.join(map(cs, lines_of(REPO + '/tests/resources/DEM_pdf2010_lidar.txt'))))
    out.append('Definition crust_lines : list string := [%s].' % ';\n'.join(map(cs, lines_of(REPO + '/tests/resources/crust_temperature_profile.txt'))))
    rows = list(csv.DictReader(open(REPO + '/tests/resources/Results-melts_MU74.csv')))
    out.append('Definition melts_rows : list (f64 * f64) := [%s].' % ';'.join('(%s, %s)' % (lit(r['temperature']), lit(r['fraq_microlite'])) for r in rows))
    out.append('''
Definition st (phi temp pos time strain : f64) : state f64 :=
  {| st_phi := phi; st_temp := temp; st_pos := pos; st_time := time; st_strain := strain |}.
Definition z : f64 := n_lit 0 1.
(* the terrain of a test: json + DEM_pdf2010_lidar.txt *)
Definition terrain_of (j : res (json f64)) : res (terrain f64 * f64) :=
  let? d := j in let? tds := read_terrain d in let '(t, depth, sm) := tds in
  let? t' := read_slope_from_file dem sm t in Ok (t', depth).
(* the lava of the flux tests: vft, er, no bubble effect (the default), constant vesicles, basic yield *)
Definition lava_of (j : res (json f64)) : res (lava f64) :=
  let? d := j in
  let? mm := read_melt_vft d in let? vm := read_v_constant d in
  let? te := jfloat2 d "eruption_condition" "eruption_temperature" in
  let? bu := jfloat2 d "thermal_parameters" "buffer" in
  let? la := jfloat2 d "crystals_parameters" "latent_heat_of_crystallization" in
  let? de := jfloat2 d "lava_state" "density_dre" in
  Ok {| lv_melt := mm; lv_rel := RelER; lv_bub := BubNo default_vesicle; lv_yield := YBasic te; lv_ves := vm;
        lv_terupt := te; lv_buffer := bu; lv_latent := la; lv_dre := de; lv_maxpack := z |}.
Definition lava_nomelt (j : res (json f64)) : res (lava f64) :=
  let? d := j in let? vm := read_v_constant d in
  let? te := jfloat2 d "eruption_condition" "eruption_temperature" in
  let? de := jfloat2 d "lava_state" "density_dre" in
  Ok {| lv_melt := MeltBasic z z; lv_rel := RelER; lv_bub := BubNo default_vesicle; lv_yield := YBasic te; lv_ves := vm;
        lv_terupt := te; lv_buffer := z; lv_latent := z; lv_dre := de; lv_maxpack := z |}.
Definition sim_of (j : res (json f64)) (cover : json f64 -> res (cover_model f64)) : res (sim f64 * f64) :=
  let? d := j in let? l := lava_of j in let? td := terrain_of j in
  let? a := match read_air d with Ok a => Ok a | Err _ => Ok {| air_temp := z; air_wind := z; air_ch := z; air_rho := z; air_cp := z |} end in
  let? cr := read_ct_constant d in let? cv := cover d in
  Ok ({| s_dx := n_lit 10 1; s_lava := l; s_air := a; s_ter := fst td; s_cryst := CrBasic z z z z; s_crust := cr; s_cover := cv;
         s_budget := []; s_mass := false |}, snd td).
Definition world_of (s : state f64) (depth : f64) := initial_world s [] depth.
Definition in_sim {A} (j : res (json f64)) (s : state f64) (k : json f64 -> sim f64 -> f64 -> M (T:=f64) A) : res A :=
  let? d := j in let? sd := sim_of j read_cv_basic in fst (k d (fst sd) (snd sd) (world_of s (snd sd))).
Definition flux_in (j : res (json f64)) (s : state f64) (r : json f64 -> res (flux f64)) (w : f64) : res f64 :=
  let? d := j in let? f := r d in in_sim j s (fun _ sm depth => compute_flux f sm w depth).
Definition rad_in (j : res (json f64)) (s : state f64) (r : json f64 -> res (flux f64)) (k : rad_kind f64 -> sim f64 -> M (T:=f64) f64) : res f64 :=
  let? d := j in let? f := r d in match f with FRadiation kd _ => in_sim j s (fun _ sm _ => k kd sm) | _ => Err TypeError end.
Definition velocity_in (j : res (json f64)) (s : state f64) : res f64 :=
  in_sim (let? d := j in Ok d) s (fun _ sm _ => compute_mean_velocity (s_lava sm) (s_ter sm)).
Definition velocity_of (j : res (json f64)) (s : state f64) : res f64 :=
  let? l := lava_of j in let? td := terrain_of j in fst (compute_mean_velocity l (fst td) (world_of s (snd td))).
Definition basal (j : res (json f64)) (y : json f64 -> res (yield_model f64)) (pos : f64) : res f64 :=
  let? d := j in let? l := lava_nomelt j in let? td := terrain_of j in let? ym := y d in
  compute_basal_shear_stress ym (fst td) (snd td) l (st z z pos z z).
Definition with_d {A} (j : res (json f64)) (k : json f64 -> res A) : res A := let? d := j in k d.
''')
    T = []   # (name, expression : res f64, expected, places)
    def S(phi='0', temp='0', pos='0', time='0', strain='0'):
        return '(st (%s) (%s) (%s) (%s) (%s))' % tuple(map(lit, (phi, temp, pos, time, strain)))
    def t(name, e, expected, places):
        T.append((name, e, expected, places))
    ct = 'j_crust_temperature_bimodal'
    for p, tm, x in (('10', '4.50220927088170', '982.55275519699'), ('26', '0', '500')):
        t('crust bimodal at %s' % p, 'with_d %s (fun d => let? m := read_ct_bimodal d in compute_crust_temperature m %s)' % (ct, S(pos=p, time=tm)), x, 10)
    t('crust hon', 'with_d j_crust_temperature (fun d => let? m := read_ct_hon d in compute_crust_temperature m %s)' % S(time='4.50220927088170'), '982.55275519699', 10)
    t('crust constant', 'with_d j_crust_temperature (fun d => let? m := read_ct_constant d in compute_crust_temperature m %s)' % S(), '773.15', 10)
    for p, x in (('3.15', '1133.21'), ('8', '773.15')):
        t('crust field at %s' % p, 'with_d j_crust_temperature (fun d => let? tb := read_crust_temperature_table crust_lines in '
          'let? tc := jfloat2 d "thermal_parameters" "crust_temperature" in compute_crust_temperature (CtField tc (Some tb)) %s)' % S(pos=p), x, 2)
    t('cryst basic', 'with_d j_crystallization_rate (fun d => let? m := read_cr_basic d in compute_crystallization_rate m %s)' % S(), '0.00597333333', 10)
    t('cryst basic phi', 'with_d j_crystallization_rate (fun d => let? m := read_cr_basic d in get_crystal_fraction m z)', '0.104', 15)
    t('cryst solid', 'with_d j_crystallization_rate (fun d => let? m := read_cr_basic d in Ok (get_solid_temperature m))', '1237.15', 12)
    for p, x in (('0', '0.00597333333'), ('40', '0.02')):
        t('cryst bimodal at %s' % p, 'with_d j_crystallization_rate_bimodal (fun d => let? m := read_cr_bimodal d in compute_crystallization_rate m %s)' % S(pos=p), x, 10)
    for p, x in (('1300', '0.006'), ('1190', '0.02')):
        t('cryst bimodal_f_temp at %s' % p, 'with_d j_crystallization_rate_bimodal_f_temp (fun d => let? m := read_cr_bimodal_f_temp d in compute_crystallization_rate m %s)' % S(temp=p), x, 10)
    melts = 'with_d j_crystallization_rate_melts (fun d => let? m0 := read_cr_melts d in let? m := read_crystal_from_melts melts_rows m0 in %s)'
    t('melts fraction', melts % ('get_crystal_fraction m (%s)' % lit('1329.9')), '0.964450359', 8)
    t('melts rate 1350.65', melts % ('compute_crystallization_rate m %s' % S(temp='1350.65')), '0.002351632', 8)
    t('melts rate 1490.65', melts % ('compute_crystallization_rate m %s' % S(temp='1490.65')), '0.000858503', 8)
    v = 'j_vesicle_fraction_model_constant'
    for m, x in (('BubDefo', '0.1821814557051'), ('BubNo', '1'), ('BubRigid', '2.77777777777777')):
        t(m, 'with_d %s (fun d => let? vm := read_v_constant d in compute_relative_viscosity_bubbles (%s vm) %s)' % (v, m, S(phi='0.2')), x, 10)
    for m, x in (('RelPTP1', '21.09375'), ('RelPTP2', '12.0260465532'), ('RelPTP3', '8.73464053710')):
        t(m, 'with_d %s (fun d => let? vm := read_v_constant d in compute_relative_viscosity (%s vm) %s)' % (v, m, S(phi='0.2')), x, 10)
    r = 'j_relative_viscosity_model'
    for m, x, pl in (('read_rel_kd', '2.18999193613', 10), ('read_rel_mp', '2.11270509716', 10), ('read_rel_mueller', '2.9033817', 6)):
        t(m, 'with_d %s (fun d => let? m := %s d in compute_relative_viscosity m %s)' % (r, m, S(phi='0.2')), x, pl)
    t('RelER', 'compute_relative_viscosity RelER %s' % S(phi='0.2'), '2.45675270805', 10)
    for c, j, x in (('1', '1', '1.9621175736'), ('1', '4', '2.0280406075'), ('2', '1', '2.5801670393'), ('2', '4', '2.9347017411')):
        t('costa%s 1e-%s' % (c, j), 'with_d j_relative_viscosity_model_costa_1s_%s (fun d => let? m := read_rel_costa%s d in compute_relative_viscosity m %s)' % (j, c, S(phi='0.2')), x, 10)
    for j in ('j_bll', 'j_relative_viscosity_model_mader'):
        t('vft ' + j, 'with_d %s (fun d => let? m := read_melt_vft d in compute_melt_viscosity m %s)' % (j, S(temp='1419.15')), '318.6256524', 4)
    t('bll', 'with_d j_bll (fun d => let? vm := read_v_constant d in let? mm := read_melt_vft d in let? m := read_rel_bll vm mm d in compute_relative_viscosity m %s)' % S(phi='0.15', temp='1419.15', strain='0.001'), '77.160624', 6)
    # the json of the mader test lacks the key vesicle_radius the code asks for, so the developers' own test
    # raises ValueError; the radius it means is passed here directly
    for s_, x in (('1.0', '0.182181456'), ('0.0001', '2.777777778')):
        t('mader bubbles %s' % s_, 'with_d j_relative_viscosity_model_mader (fun d => let? vm := read_v_constant d in let? mm := read_melt_vft d in let? rm := read_rel_mueller d in '
          'let? ra := jfloat2 d "relative_viscosity_parameters" "bubble_radius" in let? su := jfloat2 d "relative_viscosity_parameters" "surface_tension" in '
          'compute_relative_viscosity_bubbles (BubMader vm mm rm ra su) %s)' % S(phi='0.2', temp='1419.15', strain=s_), x, 3)
    mj = 'j_melt_viscosity_model'
    for m, x in (('read_melt_basic', '1865.28695961684'), ('read_melt_shaw', '1672.9255910394'), ('read_melt_vft', '19148.466310475585')):
        t(m, 'with_d %s (fun d => let? m := %s d in compute_melt_viscosity m %s)' % (mj, m, S(temp='1200')), x, 10)
    yj = 'j_yield_strength_model'
    te = 'let? te := jfloat2 d "eruption_condition" "eruption_temperature" in let? tl := jfloat2 d "lava_state" "liquidus_temperature" in '
    for m, x in (('YBasic te', '10.27102895663'), ('YDragoni tl te', '10.2776341191'), ('YDragoniAlone tl te', '0.0102839568'), ('YRyerson te', '10.2673501622')):
        t('yield ' + m, 'with_d %s (fun d => %s compute_yield_strength (%s) %s)' % (yj, te, m, S(phi='0.104', temp='1387.15')), x, 10)
    t('yield basic 2', 'with_d %s (fun d => %s compute_yield_strength (YBasic te) %s)' % (yj, te, S(phi='0.10427427974919', temp='1387.08744030420', pos='30')), '10.3484085082', 10)
    t('yield bll', 'with_d j_bll (fun d => let? vm := read_v_constant d in %s compute_yield_strength (YBLL vm te) %s)' % (te, S(phi='0.15')), '7.433613897', 8)
    for p, x in (('0', '4735.3382991549'), ('30', '4693.68722398169'), ('1010', '2178.2894789708')):
        for m in ('YBasic te', 'YDragoni tl te', 'YDragoniAlone tl te', 'YRyerson te'):
            t('basal %s at %s' % (m, p), 'basal %s (fun d => %s Ok (%s)) (%s)' % (yj, te, m, lit(p)), x, 10)
    for p, x in (('0', '0.328342197625647'), ('1000', '0.197395559779715'), ('30', '0.325347225021063')):
        t('slope at %s' % p, 'let? td := terrain_of j_terrain_condition in get_channel_slope (fst td) (%s)' % lit(p), x, 15)
    vb = 'j_vesicle_fraction_model_bimodal'
    for p, x in (('10', '0.6'), ('11000', '0.2')):
        t('vesicle bimodal at %s' % p, 'with_d %s (fun d => let? vm := read_v_bimodal d in computes_vesicle_fraction vm %s)' % (vb, S(pos=p)), x, 15)
    ml = 'j_material_lava'
    t('density', 'let? l := lava_of %s in get_bulk_density l %s' % (ml, S()), '1069.2', 15)
    t('bulk viscosity', 'let? l := lava_of %s in computes_bulk_viscosity l %s' % (ml, S(phi='0.104', temp='1387.15')), '376.937225368', 8)
    t('molten temperature', 'let? l := lava_of %s in Ok (computes_molten_material_temperature l %s)' % (ml, S(temp='1387.15')), '1247.15', 8)
    t('velocity 3710', 'velocity_of %s %s' % (ml, S(phi='0.4888694761447', temp='1322.70208376477', pos='3710')), '0.00555458852', 8)
    s10 = S(phi='0.104', temp='1387.13335767292', pos='10')
    t('velocity 10', 'velocity_of %s %s' % (ml, s10), '4.2353667026582', 8)
    t('air coefficient', 'with_d j_radiation_flux (fun d => let? a := read_air d in Ok (compute_conv_heat_transfer_coef a))', '8.7278184', 5)
    rf = 'j_radiation_flux'
    t('cover basic', 'let? d := j_effective_cover_crust_basic in let? l := lava_of j_effective_cover_crust_basic in let? td := terrain_of j_effective_cover_crust_basic in '
      'let? cv := read_cv_basic d in fst (compute_effective_cover_fraction cv l (fst td) (world_of %s (snd td)))' % s10, '0.968487820088', 10)
    cb = 'j_effective_cover_crust_bimodal'
    for s_, x in ((s10, '0.968487820088'), (S(phi='0.13073959532', temp='1382.6568629209', pos='1010'), '0.462212542509')):
        t('cover bimodal', 'let? d := %s in let? l := lava_of %s in let? td := terrain_of %s in '
          'let? cv := read_cv_bimodal d in fst (compute_effective_cover_fraction cv l (fst td) (world_of %s (snd td)))' % (cb, cb, cb, s_), x, 10)
    W = lit('6.20861841803369')
    t('conduction', 'flux_in %s %s read_f_conduction (%s)' % (rf, S(temp='1387.13335767292', pos='10'), W), '12513.32641041680', 10)
    t('rain', 'with_d j_conduction_heat_flux (fun d => let? f := read_f_rain d in match f with FRain a b c => Ok (rain_flux a b c (%s)) | _ => Err TypeError end)' % W, '1328.9890439538', 10)
    fc = 'j_forced_convection_heat_flux'
    t('characteristic temperature', 'in_sim %s %s (fun _ sm _ => characteristic_surface_temperature sm)' % (fc, s10), '788.07144823895', 8)
    t('convection', 'flux_in %s %s (fun _ => Ok FConvection) (%s)' % (fc, s10, lit('6.208618418034')), '26818.6520246127', 6)
    t('snyder temperature', 'in_sim %s %s (fun _ sm _ => effective_temperature_snyder sm)' % (rf, s10), '788.086249', 5)
    t('snyder', 'flux_in %s %s read_f_snyder (%s)' % (rf, s10, W), '74261.109313', 4)
    vj = re.findall(r"resources/(\S+)\.json", open(REPO + '/tests/flux_viscous_heating_test.py').read())[0].replace('input_parameters_', 'j_')
    t('viscous', 'let? l := lava_of %s in let? td := terrain_of %s in '
      'let sm := {| s_dx := z; s_lava := l; s_air := {| air_temp := z; air_wind := z; air_ch := z; air_rho := z; air_cp := z |}; s_ter := fst td; '
      's_cryst := CrBasic z z z z; s_crust := CtHon; s_cover := CvBasic z z; s_budget := []; s_mass := false |} in '
      'fst (viscous_flux sm (%s) (snd td) (world_of %s (snd td)))' % (vj, vj, lit('4.5513885714650'), S(phi='0.10427427974911', temp='1387.08744030421', pos='30')), '29289.5162015191', 5)
    w2 = '(%s)' % lit('6.20861841618025')
    for k, eps, sr, q in (('read_f_rad_basic', '0.95', '6.350916121', '138755.133815'), ('read_f_rad_2emi', '0.938970737028', '4.031562377', '137144.221331'),
                          ('read_f_rad_cont', '0.828043457588167', '1690.10905768722', '120942.400802094'), ('read_f_rad_lin', '0.927404392619719', '1729.10711808488', '135454.863787622')):
        t(k + ' temperature', 'rad_in %s %s %s (fun _ sm => effective_radiation_temperature sm)' % (rf, s10, k), '802.577271980509', 5)
        t(k + ' epsilon', 'rad_in %s %s %s epsilon_effective' % (rf, s10, k), eps, 5)
        t(k + ' spectral', 'rad_in %s %s %s (fun k sm => spectral_radiance k sm %s)' % (rf, s10, k, w2), sr, 5)
        t(k + ' flux', 'flux_in %s %s %s (%s)' % (rf, s10, k, W), q, 4)
    for k, c, m in (('read_f_rad_cont', '0.827561734671588', '0.842848614785299'), ('read_f_rad_lin', '0.9317638664', '0.861546075860903')):
        t(k + ' crust emissivity', 'rad_in %s %s %s emissivity_crust' % (rf, s10, k), c, 10)
        t(k + ' molten emissivity', 'rad_in %s %s %s emissivity_molten' % (rf, s10, k), m, 10)
    out.append('Definition sr (r : res f64) : Z * Z + exn := match r with Ok x => inl (show x) | Err e => inr e end.')
    for i, (_, e, _, _) in enumerate(T):
        out.append('Definition t%d := sr (%s).' % (i, e))
    out.append('Set Printing Width 100000.')
    for i in range(len(T)):
        out.append('Eval vm_compute in (%d%%nat, t%d).' % (i, i))
    o = coq('\n'.join(out), 1800)
    bad = 0
    for i, (name, _, expected, places) in enumerate(T):
        m = re.search(r'= \(%d(?:%%nat)?, (.*)\)\n' % i, o)
        if not m:
            print('FAIL %-34s no output' % name, o[:500]); bad += 1; continue
        g = re.match(r'inl \((-?\d+), (-?\d+)\)', m.group(1))
        if not g:
            print('FAIL %-34s %s' % (name, m.group(1))); bad += 1; continue
        x = math.ldexp(int(g.group(1)), int(g.group(2)))
        ok = round(abs(x - float(expected)), places) == 0       # unittest.assertAlmostEqual
        bad += not ok
        print('%s %-34s model %-24r expected %-20s (%d places)' % ('ok  ' if ok else 'FAIL', name, x, expected, places))
    print('%d assertions, %d disagree' % (len(T), bad))

# ---------------------------------------------------------------- whole runs
RUNS = [
    ('resource/template_2.json', {}, 'resource/example_slope_profile.txt', 'results_flowgo/results_flowgo_template2_10m3s_valid.csv', 400),
    ('resource/template.json', {}, 'resource/example_slope_profile.txt', 'results_flowgo/results_flowgo_template_3m3s_valid.csv', 400),
    # a table made with an older version (no vesicle_fraction and strain_rate columns), other slope file, no smoothing
    ('resource/template.json', {'"effusion_rate_init" :3': '"effusion_rate_init" :15', '"slope_smoothing_active": true': '"slope_smoothing_active": false'},
     'resource/DEM_MaunaLoa1984.txt', 'results_flowgo/results_flowgo_template_15m3s.csv', -200),
    ('MaunaUlu74/input_parameters_MaunaUlu74_this_study.json', {}, 'MaunaUlu74/field_data/slope_file_1mLidar.txt',
     'MaunaUlu74/results/results_flowgo_Mauna Ulu June 1974 Best fit_165m3s.csv', -150),
    ('Venus/Tolb_1975_Venus.json', {}, 'Venus/field_data/venus_c_1.txt', 'Venus/results_flowgo_template_test_rad_snyder_700m3s.csv', -200),
]
# fuel < 0: only the first -fuel rows
def one_run(cfg, patch, slope, table, fuel):
    txt = open(os.path.join(REPO, cfg)).read()
    for a, b in patch.items():
        assert a in txt, a
        txt = txt.replace(a, b)
    d = json.loads(txt)
    text = HEADER + '''
Definition slope : list string := [%s].
Definition fs : fsys f64 := fun p => if String.eqb p "cfg" then match doc %s with Ok j => Some (FJson j) | Err _ => None end
  else if String.eqb p %s then Some (FText slope) else None.
Definition showrow (r : list (string * cell f64)) := map (fun p => (fst p, showc (snd p))) r.
Definition go := match prepare mass_flag fs "cfg" with Err e => (Some e, [])
  | Ok (eri, name, sm, st, depth) => match %s with
     | None => (Some AssertionError, []) | Some (Err e, w) => (Some e, map showrow (w_log w))
     | Some (Ok _, w) => (None, map showrow (w_log w)) end end.
Set Printing Width 1000000. Set Printing Depth 10000000.
Eval vm_compute in go.
''' % (';\n'.join(cs(l) for l in lines_of(os.path.join(REPO, slope))), cs(txt), cs(d['slope_file']),
       'simulate %d sm (initial_world st [] depth)' % fuel if fuel > 0 else
       '(let (r, w) := init_effusion_rate sm (initial_world st [] depth) in match r with Ok _ => Some (steps sm %d w) | Err e => Some (Err e, w) end)' % -fuel)
    o = coq(text, 5 * 3600)
    rows = []
    for r in re.findall(r'\[\("position".*?\]', o):
        rows.append({k: (math.ldexp(int(m), int(e)) if int(e) != 9999 else float('nan'))
                     for k, m, e in re.findall(r'\("(\w+)", \((-?\d+), (-?\d+)\)\)', r)})
    want = list(csv.DictReader(open(os.path.join(REPO, table))))
    print('## %s %s -> %s' % (cfg, patch or '', table))
    print('model: %s, %d rows; table: %d rows' % (o[:30].split('=')[1].strip()[:24], len(rows), len(want)))
    if not rows:
        return
    print('columns in the same order: %s; only in the model: %s; only in the table: %s' % (
        list(rows[0]) == list(want[0]), [k for k in rows[0] if k not in want[0]], [k for k in want[0] if k not in rows[0]]))
    n = min(len(rows), len(want))
    for k in want[0]:
        if k in rows[0]:
            d = [(i, a[k], float(b[k])) for i, (a, b) in enumerate(zip(rows, want)) if a[k] != float(b[k])]
            if d:
                print('  %-34s %d/%d bit-identical, largest relative difference %.2g, first at row %d: %r vs %r' % (
                    k, n - len(d), n, max(abs(x - y) / max(abs(x), abs(y)) for _, x, y in d), *d[0]))
    same = [k for k in want[0] if k in rows[0] and all(a[k] == float(b[k]) for a, b in zip(rows, want))]
    print('  bit-identical in every row: %d of %d columns' % (len(same), len(want[0])))

if __name__ == '__main__':
    if sys.argv[1:] == ['tests']:
        tests()
    elif sys.argv[1:2] == ['runs']:
        for i, r in enumerate(RUNS):
            if len(sys.argv) == 2 or str(i) in sys.argv[2:]:
                one_run(*r); sys.stdout.flush()
    else:
        sys.exit(__doc__)
