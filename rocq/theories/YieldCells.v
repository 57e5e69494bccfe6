(** The condition on the slope of [YieldCurve.v] for negative section constants and
    n >= 33.  It only depends on λ and n; for λ up to 400 it is checked on 631 intervals
    [a, b] of λ, each with a bound N on n and a bound D on the square root (thousandths for
    a, b, N; D in units of 1 / 81e8), for larger λ by estimates. *)

From Coq Require Import Reals Lra Psatz ZArith List Bool.
From Verif Require Import Base Num RNum PyReal S6 S6Facts YieldCurve.
Import ListNotations.
Open Scope R_scope.

(** * n - λ times M, M = 1 - n α_a' / α_a *)

Definition wd (n : R) : R := (n - 27 / 2) * dd n.

Lemma wd_pos n : 27 / 2 < n -> 0 < wd n.
Proof. intros H. unfold wd. pose proof (dd_pos n). apply Rmult_lt_0_compat; lra. Qed.

Lemma by_distance n ab : 27 / 2 < n -> - ab * zz n = (n - lam n ab) * (cub n / wd n).
Proof.
  intros H. pose proof (dd_pos n). unfold zz, wd, lam. field. split; lra.
Qed.

Lemma ratio_grows n N : 33 <= n -> n <= N -> N <= 450 -> cub n / wd n <= cub N / wd N.
Proof.
  intros Hn L HN. pose proof (wd_pos n ltac:(lra)) as W. pose proof (wd_pos N ltac:(lra)) as W'.
  assert (H : cub n * wd N <= cub N * wd n).
  { assert (E : cub N * wd n - cub n * wd N = (N - n) *
      (27675 * (184345 / 100) + 747225 * (n + N) - 27675 * (n * n + n * N + N * N)
       - 11401821 / 100 * (n * N) + 4100 * (n * N) * (n + N) - 18 / 10 * (n * N) * (n * N))).
    { unfold cub, wd, dd. field. }
    assert (P : 0 < n * N) by (apply Rmult_lt_0_compat; lra).
    assert (P1 : n * N <= 225 * (n + N)) by nra.
    assert (P2 : 33 / 2 * (n + N) <= n * N) by nra.
    assert (P3 : (n * N) * (n * N) <= (n * N) * (225 * (n + N))) by (apply Rmult_le_compat_l; lra).
    assert (P4 : (33 / 2 * (n + N)) * (n + N) <= n * N * (n + N)) by (apply Rmult_le_compat_r; lra).
    assert (P5 : 66 * (n * N) <= n * N * (n + N)) by nra.
    assert (P6 : n * n + n * N + N * N <= (n + N) * (n + N)) by nra.
    assert (S : 0 <= 27675 * (184345 / 100) + 747225 * (n + N) - 27675 * (n * n + n * N + N * N)
       - 11401821 / 100 * (n * N) + 4100 * (n * N) * (n + N) - 18 / 10 * (n * N) * (n * N)).
    { set (pr := n * N) in *. set (su := n + N) in *.
      assert (su >= 66) by (unfold su; lra).
      set (sq := n * n + pr + N * N) in *. clearbody sq pr su. nra. }
    assert (0 <= (N - n) * (27675 * (184345 / 100) + 747225 * (n + N)
       - 27675 * (n * n + n * N + N * N) - 11401821 / 100 * (n * N)
       + 4100 * (n * N) * (n + N) - 18 / 10 * (n * N) * (n * N)))
      by (apply Rmult_le_pos; lra). lra. }
  apply Rmult_le_reg_r with (wd n * wd N); [now apply Rmult_lt_0_compat|].
  replace (cub n / wd n * (wd n * wd N)) with (cub n * wd N) by (field; lra).
  replace (cub N / wd N * (wd n * wd N)) with (cub N * wd n) by (field; lra). exact H.
Qed.

(** Section constants down to -1: λ is at least g, and g grows. *)
Definition low (n : R) : R := n - 2100 * (n - 27 / 2) / dd n.

Lemma low_le n ab : 27 / 2 <= n -> -1 <= ab <= 0 -> low n <= lam n ab <= n.
Proof.
  intros Hn Hb. unfold low, lam. pose proof (dd_pos n).
  assert (0 <= 2100 * (n - 27 / 2) / dd n) by (apply div_nonneg; lra). nra.
Qed.

Lemma low_grows x y : 33 <= x -> x < y -> low x < low y.
Proof.
  intros Hx L. pose proof (dd_pos x) as Dx. pose proof (dd_pos y) as Dy.
  assert (E : low y - low x = (y - x) * (dd x * dd y
            - 2100 * (184345 / 100 + 27 / 2 * (x + y) - x * y)) / (dd x * dd y)).
  { unfold low, dd in *. field. split; lra. }
  assert (Ex : 2600 <= dd x) by (unfold dd; nra). assert (Ey : 2600 <= dd y) by (unfold dd; nra).
  assert (B : 2600 * 2600 <= dd x * dd y) by (apply Rmult_le_compat; lra).
  assert (Q : 184345 / 100 + 27 / 2 * (x + y) - x * y <= 2000) by nra.
  assert (0 < (y - x) * (dd x * dd y
            - 2100 * (184345 / 100 + 27 / 2 * (x + y) - x * y)) / (dd x * dd y)).
  { apply div_pos; [|pos]. apply Rmult_lt_0_compat; lra. }
  lra.
Qed.

(** * One interval of λ *)

Definition pp (l : R) : R := slen l - 1 + 326 / 100000 * (l - 27 / 2).
Definition et (l : R) : R := 326 / 100000 * (l - 27 / 2).
Definition qf (l : R) : R := l * (l - 27) / 4050 + 191198 / 100000 + 326 / 100000 * l.

Lemma de2_pp l : de2 l = pp l * pp l + 4 * et l.
Proof. unfold de2, pp, et, pe. ring. Qed.

Lemma slen_grows l m : 0 <= l -> l <= m -> slen l <= slen m.
Proof. intros. unfold slen. assert (0 <= l / 90) by lra. assert (l / 90 <= m / 90) by lra. nra. Qed.

Lemma one_cell a b N D n l :
  17 <= a -> a <= l -> l <= b -> 33 <= n -> low n <= l -> l <= n ->
  33 <= N -> N <= 450 -> 2100 * (N - 27 / 2) <= (N - b) * dd N ->
  0 <= D -> pp a * pp a + 4 * et b <= D * D -> pp b * pp b + 4 * et b <= D * D ->
  0 <= D + slen b - kap ->
  (N - a) * cub N * ((D + slen b - kap) * (D + slen b - kap))
    <= 326 / 100000 * (a * a) * qf a * wd N ->
  (n - l) * (cub n / wd n) * (bb l * bb l) <= qq l * l.
Proof.
  intros Ha La Lb Hn Lo Ln HN HN' HNb HD Da Db HB H.
  assert (Hl : 0 < l) by lra.
  assert (Q : 0 < qq l * l) by (apply Rmult_lt_0_compat; auto; now apply qq_pos).
  pose proof (wd_pos n ltac:(lra)) as Wn. pose proof (wd_pos N ltac:(lra)) as WN.
  destruct (bb_pos l Hl) as [B _].
  destruct (Rle_lt_dec (cub n) 0) as [C|C].
  { assert (cub n / wd n <= 0).
    { assert (0 <= (- cub n) / wd n) by (apply div_nonneg; lra).
      replace (cub n / wd n) with (- (- cub n / wd n)) by (field; lra). lra. }
    assert (0 <= (n - l) * (bb l * bb l)) by (apply Rmult_le_pos; nra).
    apply Rle_trans with 0; [|lra].
    replace ((n - l) * (cub n / wd n) * (bb l * bb l)) with ((cub n / wd n) * ((n - l) * (bb l * bb l))) by ring.
    nra. }
  assert (Hln : l <= low N).
  { unfold low. pose proof (dd_pos N). apply Rle_trans with b; auto.
    apply Rmult_le_reg_r with (dd N); auto.
    replace ((N - 2100 * (N - 27 / 2) / dd N) * dd N) with (N * dd N - 2100 * (N - 27 / 2))
      by (field; lra). lra. }
  assert (LN : n <= N).
  { destruct (Rle_lt_dec n N) as [|K]; auto. pose proof (low_grows N n HN K). lra. }
  pose proof (ratio_grows n N Hn LN HN') as G.
  assert (M : 0 < cub n / wd n) by (apply div_pos; lra).
  assert (SB : bb l <= D + slen b - kap).
  { unfold bb. assert (de l <= D).
    { unfold de. rewrite <- (sqrt_square D) by auto. apply sqrt_le_1_alt. rewrite de2_pp.
      assert (P1 : pp a <= pp l) by (unfold pp; pose proof (slen_grows a l ltac:(lra) La); lra).
      assert (P2 : pp l <= pp b) by (unfold pp; pose proof (slen_grows l b ltac:(lra) Lb); lra).
      assert (E1 : et l <= et b) by (unfold et; lra).
      destruct (Rle_lt_dec 0 (pp l)) as [K|K]; nra. }
    pose proof (slen_grows l b ltac:(lra) Lb). lra. }
  assert (QL : 326 / 100000 * (a * a) * qf a <= qq l * l).
  { replace (qq l * l) with (326 / 100000 * (l * l) * qf l) by (unfold qq, qf; ring).
    assert (qf a <= qf l) by (unfold qf; nra). assert (0 < qf a) by (unfold qf; nra).
    apply Rmult_le_compat; nra. }
  apply Rle_trans with (326 / 100000 * (a * a) * qf a); auto.
  apply Rle_trans with ((N - a) * (cub N / wd N) * ((D + slen b - kap) * (D + slen b - kap))).
  - apply Rmult_le_compat.
    + apply Rmult_le_pos; lra.
    + apply Rmult_le_pos; lra.
    + apply Rmult_le_compat; lra.
    + apply Rmult_le_compat; lra.
  - apply Rmult_le_reg_r with (wd N); auto.
    replace ((N - a) * (cub N / wd N) * ((D + slen b - kap) * (D + slen b - kap)) * wd N)
      with ((N - a) * cub N * ((D + slen b - kap) * (D + slen b - kap))) by (field; lra).
    exact H.
Qed.

(** * The checked table *)

Section Check.
Open Scope Z_scope.
Definition zS : Z := 8100000000.
Definition zpp (a : Z) : Z := a * a - zS + 81 * (326 * a - 4401000).
Definition zet (a : Z) : Z := 81 * (326 * a - 4401000).
Definition zdd (n : Z) : Z := n * n - 15300 * n + 2050000000.
Definition cell_check (a b n d : Z) : bool :=
  (17000 <=? a) && (a <=? b) && (33000 <=? n) && (n <=? 450000) && (0 <=? d)
  && (2100000000 * (n - 13500) <=? (n - b) * zdd n)
  && (zpp a * zpp a + 4 * (zet b * zS) <=? d * d)
  && (zpp b * zpp b + 4 * (zet b * zS) <=? d * d)
  && (0 <=? d + b * b - 7743519000)
  && ((n - a) * (2 * n * n * n - 55800 * n * n + 413100000 * n - 27675000000000)
        * ((d + b * b - 7743519000) * (d + b * b - 7743519000)) * 100000000
      <=? 326 * (a * a) * (2 * a * a - 27594 * a + 15487038000) * zS * ((n - 13500) * zdd n)).

Fixpoint chain (a : Z) (l : list (Z * Z * Z)) : bool :=
  match l with
  | [] => 400000 <=? a
  | (b, n, d) :: r => cell_check a b n d && chain b r
  end.

Definition cells : list (Z * Z * Z) :=
  [(32262, 52737, 8696457523); (48734, 68986, 8557289732); (65579, 84463, 8218557403);
   (81523, 98904, 8004630318); (93980, 110214, 8776088303); (103267, 118692, 10057308494);
   (110527, 125352, 11296536513); (116420, 130779, 12442835721); (121345, 135331, 13490476116);
   (125556, 139233, 14447271513); (129220, 142637, 15323480913); (132455, 145648, 16129665053);
   (135344, 148342, 16874668562); (137949, 150775, 17566193482); (140318, 152991, 18210998645);
   (142487, 155022, 18814436924); (144485, 156895, 19381187887); (146336, 158632, 19915433343);
   (148057, 160249, 20419996848); (149665, 161761, 20898186973); (151173, 163179, 21352514949);
   (152591, 164515, 21784873595); (153930, 165776, 22197688963); (155196, 166970, 22592030767);
   (156397, 168103, 22969726459); (157539, 169181, 23332100851); (158627, 170208, 23680256888);
   (159665, 171189, 24015053342); (160657, 172127, 24337411629); (161607, 173025, 24648310223);
   (162519, 173888, 24948779642); (163395, 174717, 25239232785); (164237, 175515, 25520110322);
   (165048, 176283, 25792215159); (165829, 177023, 26055704830); (166583, 177738, 26311431733);
   (167312, 178429, 26559933948); (168017, 179098, 26801425064); (168699, 179745, 27036129952);
   (169360, 180372, 27264630567); (170002, 180981, 27487524774); (170624, 181572, 27704377254);
   (171228, 182146, 27915802211); (171816, 182704, 28122427628); (172387, 183247, 28323834278);
   (172944, 183776, 28521018439); (173485, 184291, 28713213967); (174013, 184793, 28901432027);
   (174527, 185282, 29085266712); (175029, 185759, 29265386994); (175520, 186226, 29442111681);
   (175999, 186682, 29615041871); (176467, 187128, 29784500607); (176924, 187563, 29950452472);
   (177372, 187989, 30113592263); (177810, 188407, 30273526622); (178239, 188815, 30430592159);
   (178659, 189215, 30584762442); (179070, 189607, 30736011645); (179473, 189991, 30884683904);
   (179869, 190368, 31031127480); (180257, 190738, 31174952341); (180637, 191101, 31316137388);
   (181011, 191457, 31455407581); (181378, 191807, 31592374032); (181738, 192151, 31727019327);
   (182092, 192488, 31859701611); (182440, 192820, 31990406497); (182782, 193147, 32119119860);
   (183119, 193468, 32246205322); (183450, 193784, 32371273269); (183776, 194095, 32494689257);
   (184096, 194401, 32616062643); (184411, 194702, 32735760866); (184721, 194998, 32853773329);
   (185027, 195290, 32970471319); (185329, 195578, 33085846592); (185626, 195862, 33199507996);
   (185919, 196142, 33311829255); (186208, 196418, 33422802504); (186493, 196690, 33532419993);
   (186774, 196959, 33640674090); (187052, 197224, 33747943439); (187326, 197486, 33853835675);
   (187596, 197744, 33958343478); (187862, 197999, 34061459646); (188125, 198250, 34163565609);
   (188385, 198499, 34264656097); (188642, 198745, 34364725900); (188896, 198987, 34463769876);
   (189147, 199227, 34561782947); (189395, 199465, 34658760098); (189640, 199699, 34754696379);
   (189882, 199931, 34849586904); (190122, 200160, 34943819749); (190359, 200387, 35036998291);
   (190593, 200611, 35129117814); (190825, 200833, 35220568101); (191054, 201052, 35310951125);
   (191281, 201269, 35400657770); (191505, 201484, 35489289097); (191728, 201697, 35577633473);
   (191948, 201908, 35664895620); (192166, 202116, 35751468543); (192382, 202323, 35837349351);
   (192596, 202528, 35922535184); (192808, 202731, 36007023209); (193018, 202932, 36090810622);
   (193226, 203132, 36173894648); (193432, 203329, 36256272538); (193637, 203525, 36338342135);
   (193839, 203719, 36419300064); (194040, 203911, 36499945216); (194239, 204102, 36579874381);
   (194436, 204291, 36659084938); (194632, 204478, 36737977016); (194827, 204665, 36816549312);
   (195020, 204850, 36894396967); (195211, 205033, 36971517442); (195401, 205215, 37048312619);
   (195589, 205396, 37124376439); (195776, 205575, 37200111638); (195962, 205753, 37275516979);
   (196146, 205930, 37350185224); (196329, 206105, 37424520363); (196510, 206279, 37498114394);
   (196690, 206451, 37571372126); (196869, 206623, 37644292374); (197046, 206793, 37716466003);
   (197223, 206962, 37788707365); (197398, 207130, 37860199010); (197572, 207297, 37931347741);
   (197745, 207463, 38002152412); (197917, 207628, 38072611886); (198088, 207792, 38142725032);
   (198258, 207955, 38212490727); (198427, 208117, 38281907855); (198595, 208278, 38350975306);
   (198761, 208438, 38419280323); (198927, 208597, 38487644763); (199092, 208755, 38555656245);
   (199256, 208913, 38623313685); (199419, 209069, 38690616012); (199581, 209225, 38757562157);
   (199742, 209379, 38824151060); (199902, 209533, 38890381669); (200062, 209686, 38956667395);
   (200220, 209838, 39022178625); (200377, 209989, 39087328441); (200534, 210139, 39152531292);
   (200690, 210289, 39217371354); (200845, 210438, 39281847611); (201000, 210587, 39346375526);
   (201154, 210735, 39410538281); (201308, 210882, 39474752007); (201461, 211029, 39538599228);
   (201613, 211175, 39602078946); (201765, 211321, 39665608290); (201916, 211466, 39728768805);
   (202066, 211610, 39791559509); (202215, 211754, 39853979425); (202363, 211896, 39916027586);
   (202511, 212038, 39978122748); (202659, 212180, 40040264902); (202806, 212321, 40102033685);
   (202952, 212462, 40163428142); (203098, 212602, 40224868303); (203243, 212741, 40285932869);
   (203388, 212880, 40347042498); (203532, 213019, 40407775272); (203676, 213157, 40468552473);
   (203819, 213295, 40528951569); (203962, 213432, 40589394460); (204105, 213569, 40649881141);
   (204247, 213706, 40709988160); (204389, 213842, 40770138342); (204530, 213978, 40829907631);
   (204671, 214113, 40889719463); (204811, 214248, 40949149180); (204950, 214382, 41008195876);
   (205090, 214516, 41067709138); (205229, 214650, 41126838769); (205367, 214783, 41185583870);
   (205505, 214915, 41244369679); (205643, 215048, 41303196190); (205780, 215180, 41361636676);
   (205917, 215311, 41420117262); (206054, 215443, 41478637942); (206190, 215574, 41536771113);
   (206326, 215705, 41594943782); (206461, 215835, 41652727768); (206597, 215965, 41710979123);
   (206732, 216095, 41768841203); (206867, 216225, 41826742177); (207002, 216355, 41884682038);
   (207136, 216484, 41942231166); (207270, 216613, 41999818595); (207404, 216742, 42057444320);
   (207537, 216870, 42114677864); (207670, 216998, 42171949122); (207804, 217126, 42229689126);
   (207937, 217254, 42287036078); (208070, 217382, 42344420727); (208203, 217510, 42401843068);
   (208336, 217638, 42459303093); (208468, 217765, 42516368344); (208600, 217892, 42573470705);
   (208732, 218019, 42630610169); (208864, 218146, 42687786732); (208995, 218273, 42744566811);
   (209126, 218399, 42801383418); (209257, 218525, 42858236547); (209388, 218651, 42915126193);
   (209519, 218777, 42972052350); (209650, 218903, 43029015014); (209781, 219029, 43086014178);
   (209912, 219155, 43143049838); (210043, 219281, 43200121988); (210173, 219407, 43256794542);
   (210303, 219532, 43313503020); (210433, 219657, 43370247419); (210563, 219782, 43427027732);
   (210693, 219907, 43483843955); (210823, 220032, 43540696083); (210952, 220157, 43597146374);
   (211082, 220282, 43654070020); (211212, 220407, 43711029557); (211342, 220532, 43768024978);
   (211472, 220657, 43825056279); (211601, 220782, 43881684339); (211730, 220906, 43938347720);
   (211860, 221031, 43995486079); (211990, 221156, 44052660298); (212119, 221281, 44109430159);
   (212248, 221405, 44166235320); (212378, 221530, 44223516539); (212508, 221655, 44280833599);
   (212637, 221780, 44337745183); (212766, 221904, 44394692048); (212896, 222029, 44452116050);
   (213026, 222154, 44509575875); (213155, 222279, 44566629105); (213285, 222404, 44624160283);
   (213415, 222529, 44681727268); (213544, 222654, 44738886821); (213674, 222779, 44796525132);
   (213804, 222904, 44854199237); (213934, 223029, 44911909130); (214064, 223155, 44969654807);
   (214194, 223280, 45027436263); (214324, 223405, 45085253495); (214454, 223531, 45143106496);
   (214584, 223656, 45200995263); (214715, 223782, 45259365503); (214845, 223908, 45317326063);
   (214976, 224034, 45375768638); (215107, 224160, 45434247513); (215238, 224286, 45492762682);
   (215369, 224413, 45551314142); (215500, 224539, 45609901886); (215632, 224666, 45668973563);
   (215763, 224793, 45727634142); (215895, 224920, 45786779200); (216027, 225047, 45845961081);
   (216159, 225175, 45905179780); (216291, 225302, 45964435292); (216423, 225429, 46023727614);
   (216556, 225557, 46083506344); (216688, 225685, 46142872548); (216821, 225813, 46202725711);
   (216954, 225941, 46262616225); (217087, 226070, 46322544084); (217220, 226198, 46382509284);
   (217354, 226327, 46442963109); (217488, 226456, 46503454828); (217622, 226586, 46563984439);
   (217756, 226715, 46624551935); (217891, 226845, 46685609734); (218026, 226975, 46746705977);
   (218161, 227106, 46807840659); (218296, 227236, 46869013775); (218432, 227367, 46930678884);
   (218568, 227498, 46992382989); (218704, 227630, 47054126086); (218840, 227761, 47115908169);
   (218977, 227893, 47178183946); (219114, 228025, 47240499276); (219251, 228158, 47302854153);
   (219388, 228290, 47365248574); (219526, 228423, 47428138401); (219664, 228556, 47491068340);
   (219803, 228690, 47554494838); (219942, 228825, 47617962023); (220081, 228959, 47681469889);
   (220220, 229093, 47745018432); (220360, 229228, 47809065270); (220500, 229363, 47873153361);
   (220641, 229499, 47937740917); (220782, 229636, 48002370308); (220923, 229772, 48067041529);
   (221065, 229909, 48132213682); (221207, 230046, 48197428251); (221349, 230183, 48262685230);
   (221492, 230321, 48328444619); (221635, 230459, 48394247008); (221779, 230598, 48460552999);
   (221923, 230737, 48526902583); (222068, 230877, 48593756970); (222213, 231017, 48660655546);
   (222359, 231158, 48728060134); (222505, 231299, 48795509512); (222652, 231441, 48863466117);
   (222799, 231583, 48931468118); (222947, 231726, 48999978570); (223095, 231869, 49068535026);
   (223244, 232013, 49137601167); (223393, 232157, 49206713923); (223542, 232301, 49275873290);
   (223692, 232446, 49345543888); (223842, 232591, 49415261713); (223993, 232737, 49485492018);
   (224144, 232883, 49555770171); (224296, 233030, 49626562058); (224448, 233177, 49697402417);
   (224601, 233325, 49768757776); (224755, 233473, 49840629091); (224909, 233622, 49912550144);
   (225064, 233772, 49984988433); (225219, 233922, 50057477095); (225374, 234072, 50130016124);
   (225530, 234223, 50203073996); (225687, 234374, 50276651686); (225845, 234527, 50350750175);
   (226003, 234680, 50424900974); (226161, 234833, 50499104077); (226321, 234987, 50574299756);
   (226481, 235142, 50649549057); (226641, 235297, 50724851976); (226803, 235453, 50801150802);
   (226965, 235610, 50877504580); (227127, 235767, 50953913305); (227291, 235925, 51031321308);
   (227455, 236084, 51108785609); (227620, 236243, 51186779059); (227785, 236403, 51264829482);
   (227951, 236564, 51343410422); (228118, 236725, 51422522914); (228285, 236887, 51501693747);
   (228453, 237049, 51581397515); (228622, 237213, 51661635266); (228792, 237377, 51742408052);
   (228962, 237542, 51823241263); (229133, 237707, 51904610918); (229306, 237874, 51986994465);
   (229479, 238042, 52069440567); (229653, 238210, 52152426326); (229828, 238379, 52235952825);
   (230003, 238549, 52319543311); (230179, 238719, 52403675984); (230357, 238891, 52488830520);
   (230535, 239064, 52574051231); (230714, 239237, 52659817434); (230894, 239411, 52746130243);
   (231075, 239586, 52832990777); (231257, 239762, 52920400161); (231439, 239939, 53007878684);
   (231622, 240116, 53095907559); (231806, 240294, 53184487923); (231991, 240473, 53273620921);
   (232177, 240653, 53363307699); (232364, 240834, 53453549415); (232552, 241016, 53544347228);
   (232741, 241199, 53635702307); (232931, 241383, 53727615823); (233122, 241568, 53820088956);
   (233314, 241754, 53913122892); (233507, 241941, 54006718821); (233701, 242129, 54100877941);
   (233896, 242318, 54195601453); (234092, 242508, 54290890569); (234290, 242699, 54387233286);
   (234489, 242892, 54484144869); (234689, 243086, 54581626551); (234890, 243281, 54679679570);
   (235093, 243477, 54778793629); (235296, 243674, 54877993488); (235500, 243872, 54977768440);
   (235706, 244071, 55078609480); (235913, 244272, 55180029005); (236122, 244474, 55282518893);
   (236331, 244677, 55385099670); (236542, 244881, 55488754267); (236754, 245087, 55592993389);
   (236967, 245293, 55697818349); (237181, 245501, 55803230462); (237397, 245710, 55909724302);
   (237614, 245920, 56016808847); (237832, 246132, 56124485439); (238052, 246345, 56233250036);
   (238273, 246559, 56342610295); (238496, 246775, 56453063115); (238721, 246993, 56564611264);
   (238946, 247212, 56676264586); (239173, 247432, 56789016949); (239401, 247653, 56902373750);
   (239631, 247876, 57016834289); (239862, 248100, 57131903042); (240095, 248326, 57248080289);
   (240329, 248553, 57364869575); (240565, 248782, 57482772173); (240802, 249012, 57601290680);
   (241042, 249244, 57721428198); (241283, 249478, 57842186544); (241525, 249713, 57963567201);
   (241769, 249950, 58086073989); (242015, 250188, 58209709927); (242262, 250428, 58333974707);
   (242511, 250670, 58459373715); (242762, 250913, 58585910032); (243014, 251158, 58713081850);
   (243269, 251405, 58841901592); (243525, 251654, 58971362054); (243783, 251904, 59101971310);
   (244043, 252156, 59233732551); (244304, 252410, 59366141403); (244568, 252666, 59500215726);
   (244834, 252924, 59635451739); (245101, 253184, 59771343492); (245370, 253445, 59908402412);
   (245641, 253708, 60046631821); (245914, 253973, 60186035063); (246189, 254240, 60326615507);
   (246466, 254509, 60468376546); (246745, 254780, 60611321597); (247026, 255053, 60755454099);
   (247309, 255328, 60900777520); (247594, 255605, 61047295346); (247882, 255884, 61195526078);
   (248172, 256166, 61344959462); (248464, 256450, 61495599071); (248759, 256736, 61647965302);
   (249055, 257024, 61801028788); (249354, 257314, 61955827394); (249655, 257607, 62111848001);
   (249959, 257902, 62269613594); (250265, 258200, 62428609882); (250573, 258499, 62588840632);
   (250884, 258801, 62750830819); (251197, 259106, 62914064358); (251512, 259412, 63078545097);
   (251830, 259721, 63244800050); (252151, 260033, 63412835092); (252474, 260347, 63582131683);
   (252800, 260664, 63753218933); (253128, 260983, 63925577043); (253459, 261305, 64099736541);
   (253792, 261629, 64275176347); (254129, 261956, 64452956315); (254468, 262286, 64632027576);
   (254810, 262619, 64812923576); (255155, 262954, 64995650626); (255503, 263293, 65180215087);
   (255854, 263634, 65366623378); (256207, 263978, 65554349802); (256564, 264325, 65744464484);
   (256924, 264675, 65936442565); (257286, 265028, 66129756289); (257652, 265384, 66325480368);
   (258021, 265743, 66523087901); (258393, 266105, 66722585682); (258768, 266470, 66923980561);
   (259146, 266838, 67127279440); (259528, 267210, 67333028277); (259913, 267585, 67540696661);
   (260302, 267963, 67750832269); (260694, 268345, 67962903253); (261089, 268730, 68176916820);
   (261488, 269118, 68393423263); (261890, 269510, 68611888517); (262296, 269905, 68832864660);
   (262706, 270304, 69056361654); (263119, 270707, 69281843171); (263536, 271113, 69509864035);
   (263957, 271523, 69740434472); (264381, 271936, 69973015824); (264809, 272353, 70208165728);
   (265241, 272774, 70445894672); (265677, 273199, 70686213239); (266117, 273628, 70929132112);
   (266560, 274060, 71174108614); (267008, 274496, 71422259600); (267460, 274937, 71673043497);
   (267916, 275381, 71926471369); (268376, 275830, 72182554374); (268841, 276283, 72441861892);
   (269309, 276740, 72703289981); (269782, 277201, 72967967316); (270260, 277667, 73235908369);
   (270742, 278137, 73506565741); (271229, 278612, 73780514230); (271720, 279091, 74057204702);
   (272216, 279575, 74337214194); (272716, 280063, 74619991798); (273221, 280555, 74906116825);
   (273731, 281053, 75195604705); (274245, 281555, 75487901820); (274765, 282062, 75784161232);
   (275289, 282574, 76083259342); (275818, 283090, 76385781346); (276353, 283612, 76692316901);
   (276893, 284139, 77002311002); (277438, 284671, 77315780125); (277988, 285208, 77632740896);
   (278544, 285751, 77953788078); (279105, 286299, 78278362898); (279671, 286852, 78606482458);
   (280242, 287410, 78938164010); (280819, 287973, 79274007594); (281402, 288543, 79614034327);
   (281991, 289118, 79958265540); (282585, 289699, 80306136531); (283185, 290285, 80658252859);
   (283791, 290877, 81014636464); (284403, 291475, 81375309501); (285021, 292079, 81740294342);
   (285645, 292689, 82109613569); (286275, 293305, 82483289984); (286911, 293927, 82861346601);
   (287554, 294555, 83244403037); (288203, 295190, 83631888991); (288859, 295831, 84024427208);
   (289521, 296479, 84421445244); (290190, 297133, 84823569020); (290866, 297794, 85230827037);
   (291548, 298462, 85642643555); (292236, 299135, 86059043447); (292931, 299815, 86480659150);
   (293633, 300502, 86907520248); (294343, 301196, 87340266843); (295060, 301898, 87778321800);
   (295784, 302607, 88221715620); (296515, 303322, 88670479101); (297253, 304045, 89124643328);
   (297999, 304775, 89584857349); (298752, 305513, 90050538229); (299513, 306258, 90522338720);
   (300281, 307010, 90999673494); (301057, 307770, 91483199067); (301841, 308538, 91972953138);
   (302633, 309314, 92468973785); (303433, 310097, 92971299470); (304241, 310889, 93479969033);
   (305057, 311689, 93995021699); (305881, 312496, 94516497072); (306713, 313312, 95044435135);
   (307554, 314136, 95579513349); (308404, 314969, 96121777635); (309262, 315810, 96670633830);
   (310128, 316660, 97226123539); (311003, 317518, 97788932845); (311887, 318384, 98359109491);
   (312780, 319260, 98936701702); (313682, 320145, 99521758186); (314593, 321039, 100114328134);
   (315513, 321941, 100714461217); (316442, 322853, 101322207591); (317381, 323774, 101938274932);
   (318330, 324705, 102562720125); (319287, 325645, 103194278837); (320254, 326594, 103834323111);
   (321231, 327553, 104482911500); (322218, 328522, 105140103155); (323214, 329500, 105805288950);
   (324220, 330488, 106479194015); (325237, 331486, 107162552189); (326264, 332495, 107854756137);
   (327301, 333514, 108555867983); (328348, 334542, 109265950449); (329405, 335581, 109985066848);
   (330473, 336630, 110713964661); (331552, 337690, 111452714938); (332641, 338761, 112200701493);
   (333741, 339842, 112958680324); (334852, 340934, 113726724577); (335974, 342037, 114504908121);
   (337107, 343151, 115293305543); (338251, 344276, 116091992150); (339407, 345412, 116901745618);
   (340574, 346560, 117721945766); (341752, 347719, 118552670127); (342942, 348889, 119394705751);
   (344143, 350071, 120247427668); (345356, 351264, 121111629312); (346580, 352469, 121986682433);
   (347816, 353685, 122873386941); (349064, 354913, 123771832379); (350324, 356154, 124682109146);
   (351596, 357406, 125604308499); (352880, 358670, 126538522552); (354176, 359946, 127484844275);
   (355485, 361235, 128444101634); (356806, 362536, 129415660509); (358139, 363849, 130399616512);
   (359486, 365175, 131397550542); (360845, 366514, 132408086463); (362217, 367866, 133432070328);
   (363601, 369230, 134468859177); (364999, 370607, 135520059804); (366409, 371997, 136584277867);
   (367833, 373400, 137663133451); (369270, 374817, 138755984803); (370720, 376246, 139862944515);
   (372183, 377689, 140984126187); (373660, 379145, 142120415234); (375150, 380615, 143271162465);
   (376653, 382097, 144436484573); (378170, 383593, 145617279164); (379701, 385103, 146813674196);
   (381245, 386627, 148025012694); (382803, 388164, 149252204772); (384375, 389715, 150495381808);
   (385961, 391280, 151754676346); (387561, 392859, 153030222101); (389176, 394453, 154322956031);
   (390805, 396061, 155632218665); (392448, 397683, 156958147300); (394105, 399319, 158300880404);
   (395777, 400970, 159661372984); (397463, 402635, 161038957255); (399164, 404315, 162434597462);
   (400879, 406009, 163847621535)].

Lemma cells_ok : chain 17000 cells = true.
Proof. vm_compute. reflexivity. Qed.
End Check.

Lemma chain_finds l : forall a x, chain a l = true -> IZR a / 1000 <= x < 400 ->
  exists a' b n d, cell_check a' b n d = true /\ IZR a' / 1000 <= x <= IZR b / 1000.
Proof.
  induction l as [|[[b n] d] r IH]; intros a x H Hx; cbn [chain] in H.
  - apply Z.leb_le, IZR_le in H. lra.
  - apply andb_prop in H as [H1 H2].
    destruct (Rle_lt_dec x (IZR b / 1000)) as [K|K].
    + exists a, b, n, d. split; auto. lra.
    + apply (IH b x H2). lra.
Qed.

Ltac z2r H := apply Z.leb_le, IZR_le in H;
  repeat first [rewrite plus_IZR in H | rewrite minus_IZR in H | rewrite mult_IZR in H].

Lemma cell_holds a b n d x l :
  cell_check a b n d = true -> IZR a / 1000 <= l <= IZR b / 1000 ->
  33 <= x -> low x <= l -> l <= x -> (x - l) * (cub x / wd x) * (bb l * bb l) <= qq l * l.
Proof.
  intros H Hl Hx Lo Lx. unfold cell_check in H.
  repeat match goal with H : (_ && _)%bool = true |- _ => apply andb_prop in H as [H ?] end.
  unfold zpp, zet, zdd, zS in *.
  z2r H. z2r H0. z2r H1. z2r H2. z2r H3. z2r H4. z2r H5. z2r H6. z2r H7. z2r H8.
  set (A := IZR a) in *. set (B := IZR b) in *. set (N := IZR n) in *. set (D := IZR d) in *.
  clearbody A B N D.
  apply (one_cell (A / 1000) (B / 1000) (N / 1000) (D / 8100000000)); try lra.
  - unfold dd. lra.
  - unfold pp, et, slen. lra.
  - unfold pp, et, slen. lra.
  - unfold slen, kap. lra.
  - unfold cub, slen, kap, qf, wd, dd. lra.
Qed.

(** * λ >= 400 *)

Lemma tail_holds x l : 400 <= l -> l <= x -> low x <= l ->
  (x - l) * (cub x / wd x) * (bb l * bb l) <= qq l * l.
Proof.
  intros Hl Lx Lo.
  pose proof (wd_pos x ltac:(lra)) as W. pose proof (dd_pos x) as Dx.
  assert (Y : x - l <= 21 * 251 / 1000).
  { assert (x - l <= 2100 * (x - 27 / 2) / dd x) by (unfold low in Lo; lra).
    apply Rle_trans with (1 := H). apply Rmult_le_reg_r with (dd x); auto.
    unfold Rdiv at 1. rewrite Rmult_assoc, Rinv_l by lra. unfold dd. nra. }
  assert (M : cub x / wd x <= 201 / 100).
  { apply Rmult_le_reg_r with (wd x); auto. unfold Rdiv at 1. rewrite Rmult_assoc, Rinv_l by lra.
    unfold cub, wd, dd. nra. }
  assert (C : 0 <= cub x / wd x) by (apply div_nonneg; [unfold cub; nra|lra]).
  assert (P : (x - l) * (cub x / wd x) <= 106 / 10).
  { apply Rle_trans with (21 * 251 / 1000 * (201 / 100)); [|lra]. apply Rmult_le_compat; lra. }
  destruct (bb_pos l ltac:(lra)) as [B _].
  set (t := l / 90).
  assert (Ht : 44 / 10 <= t) by (unfold t; lra).
  assert (BB : bb l <= 2 * (t * t) + 3 / 10 * t - 18 / 10).
  { unfold bb. assert (de l <= t * t + 3 / 10 * t - 85 / 100).
    { unfold de. rewrite <- (sqrt_square (t * t + 3 / 10 * t - 85 / 100)) by nra.
      apply sqrt_le_1_alt. rewrite de2_pp. unfold pp, et, slen. fold t.
      replace l with (90 * t) by (unfold t; field). nra. }
    unfold slen, kap. fold t. lra. }
  assert (Q : qq l * l = 26406 / 1000 * (t * t) * (2 * (t * t) - 3066 / 10000 * t + 191198 / 100000)).
  { unfold qq, t. field. }
  rewrite Q.
  apply Rle_trans with (106 / 10 * ((2 * (t * t) + 3 / 10 * t - 18 / 10) * (2 * (t * t) + 3 / 10 * t - 18 / 10))).
  - apply Rmult_le_compat; try lra.
    + apply Rmult_le_pos; lra.
    + nra.
    + apply Rmult_le_compat; lra.
  - assert (0 <= t * t * (t * t) - 44 / 10 * (t * t * t)) by nra. nra.
Qed.

(** * The condition holds *)

Lemma lam_positive n ab : 0 < n -> -1 <= ab <= 0 -> 0 < lam n ab.
Proof.
  intros Hn Hb. unfold lam. pose proof (dd_pos n).
  destruct (Rle_lt_dec (27 / 2) n) as [K|K].
  - assert (2100 * (n - 27 / 2) / dd n < n).
    { apply Rmult_lt_reg_r with (dd n); auto. unfold Rdiv. rewrite Rmult_assoc, Rinv_l by lra.
      unfold dd. destruct (Rle_lt_dec n 20).
      - nra.
      - assert (47 / 10 * (n * n) <= n * n * (n - 153 / 10)) by nra. nra. }
    assert (0 <= 2100 * (n - 27 / 2) / dd n) by (apply div_nonneg; lra). nra.
  - assert (0 <= 2100 * (27 / 2 - n) / dd n) by (apply div_nonneg; lra).
    replace (2100 * (n - 27 / 2) / dd n) with (- (2100 * (27 / 2 - n) / dd n)) by (field; lra). nra.
Qed.

Lemma slope_negative n ab : 0 < n -> -1 <= ab <= 0 -> slope_ok n ab.
Proof.
  intros Hn Hb. unfold slope_ok.
  destruct (Rle_lt_dec n 33) as [C|C].
  - assert (L : 0 < lam n ab) by (apply lam_positive; lra).
    assert (Z : zz n <= 0).
    { unfold zz. pose proof (dd_pos n).
      assert (0 <= 2100 * - cub n / (dd n * dd n)).
      { apply div_nonneg; [|pos]. unfold cub. nra. }
      replace (2100 * cub n / (dd n * dd n)) with (- (2100 * - cub n / (dd n * dd n))) by (field; lra).
      lra. }
    assert (0 < qq (lam n ab) * lam n ab) by (apply Rmult_lt_0_compat; auto; now apply qq_pos).
    destruct (bb_pos _ L) as [B _]. set (b := bb (lam n ab)) in *.
    assert (0 <= b * b) by nra. assert (- ab * zz n <= 0) by nra. nra.
  - rewrite by_distance by lra.
    destruct (low_le n ab) as [L1 L2]; [lra|lra|].
    set (l := lam n ab) in *. clearbody l.
    destruct (Rle_lt_dec 400 l) as [K|K]; [now apply tail_holds|].
    assert (17 <= l).
    { assert (low 33 <= low n) by (destruct (Req_dec 33 n) as [<-|]; [lra|]; left; apply low_grows; lra).
      assert (17 <= low 33) by (unfold low, dd; lra). lra. }
    destruct (chain_finds cells 17000 l cells_ok) as (a & b & N & d & H1 & H2); [lra|].
    apply (cell_holds a b N d); auto; lra.
Qed.

Lemma slope_positive n ab : 27 / 2 <= n -> 0 <= ab <= 1 -> slope_ok n ab.
Proof.
  intros Hn Hb. unfold slope_ok.
  assert (L : n <= lam n ab).
  { unfold lam. pose proof (dd_pos n).
    assert (0 <= 2100 * (n - 27 / 2) / dd n) by (apply div_nonneg; lra). nra. }
  assert (Q : 0 < qq (lam n ab)) by (apply qq_pos; lra).
  assert (QL : 0 < qq (lam n ab) * lam n ab) by (apply Rmult_lt_0_compat; lra).
  destruct (bb_pos (lam n ab)) as [B B']; [lra|].
  destruct (Rle_lt_dec 0 (zz n)) as [C|C].
  { assert (0 <= bb (lam n ab) * bb (lam n ab)) by nra. assert (- ab * zz n <= 0) by nra. nra. }
  assert (N : n <= 34).
  { destruct (Rle_lt_dec n 34) as [|K]; auto. exfalso. unfold zz in C.
    assert (0 <= 2100 * cub n / (dd n * dd n)); [|lra]. apply div_nonneg.
    - unfold cub. nra.
    - pose proof (dd_pos n). pos. }
  assert (Z : - zz n <= 142 / 10).
  { unfold zz. pose proof (dd_pos n). apply Rmult_le_reg_r with (dd n * dd n); [pos|].
    replace (- (2100 * cub n / (dd n * dd n)) * (dd n * dd n)) with (- (2100 * cub n)) by (field; lra).
    assert (2020 <= dd n) by (unfold dd; nra).
    assert (2020 * 2020 <= dd n * dd n) by (apply Rmult_le_compat; lra).
    assert (- cub n <= 27500).
    { set (h := n - 27 / 2). assert (0 <= h) by (unfold h; lra).
      assert (0 <= h * h) by nra. assert (0 <= h * h * h) by nra.
      replace (cub n) with (2 * (h * h * h) + 252 / 10 * (h * h) - 2734695 / 100)
        by (unfold cub, h; field). lra. }
    lra. }
  assert (LU : lam n ab <= 51).
  { unfold lam. pose proof (dd_pos n).
    assert (2100 * (n - 27 / 2) / dd n <= 17).
    { apply Rmult_le_reg_r with (dd n); auto. unfold Rdiv. rewrite Rmult_assoc, Rinv_l by lra.
      unfold dd. nra. }
    assert (0 <= 2100 * (n - 27 / 2) / dd n) by (apply div_nonneg; lra). nra. }
  set (l := lam n ab) in *. clearbody l.
  pose proof (bb_prod l ltac:(lra)) as E.
  assert (U : slen l <= 33 / 100) by (unfold slen; nra).
  assert (D : 6 / 5 <= de l - slen l + kap) by (unfold bb, kap in *; lra).
  assert (BQ : bb l <= 5 / 6 * qq l) by nra.
  assert (QS : qq l <= 1 / 100 * l) by (unfold qq; nra).
  assert (ZZ : - ab * zz n <= 142 / 10) by nra.
  assert (B2 : bb l * bb l <= 25 / 36 * (qq l * qq l)) by nra.
  assert (0 <= - ab * zz n) by nra.
  apply Rle_trans with (142 / 10 * (25 / 36 * (qq l * qq l))); [apply Rmult_le_compat; nra|]. nra.
Qed.

(** λ_n² α_c is nondecreasing for every section constant between -1 and 1. *)
Lemma strength_grows ab n n' : -1 <= ab <= 1 -> 0 < n -> n <= n' ->
  lam n ab <> 0 -> lam n' ab <> 0 ->
  n * n * ac_of (lam n ab) <= n' * n' * ac_of (lam n' ab).
Proof.
  intros Hb Hn L Z Z'.
  destruct (Rle_lt_dec ab 0) as [C|C].
  - apply ext_up; auto. intros x Hx. split; [|apply slope_negative; lra].
    apply lam_positive; lra.
  - assert (UP : forall m m', 27 / 2 <= m -> m <= m' ->
      m * m * ac_of (lam m ab) <= m' * m' * ac_of (lam m' ab)).
    { intros m m' Hm Lm. apply ext_up; [lra|auto|]. intros x Hx. split; [|apply slope_positive; lra].
      unfold lam. pose proof (dd_pos x).
      assert (0 <= 2100 * (x - 27 / 2) / dd x) by (apply div_nonneg; lra). nra. }
    assert (ONE : forall m, 0 < m -> m <= 27 / 2 -> lam m ab <> 0 -> ac_of (lam m ab) = 1).
    { intros m Hm Lm Zm. apply ac_of_eq_1; auto. split.
      - apply lam_low; lra.
      - apply Rle_trans with (lam (27 / 2) ab); [apply lam_mono; lra|]. unfold lam. lra. }
    destruct (Rle_lt_dec (27 / 2) n) as [K|K]; [now apply UP|].
    rewrite (ONE n) by (auto; lra).
    destruct (Rle_lt_dec n' (27 / 2)) as [K'|K'].
    + rewrite (ONE n') by (auto; lra). nra.
    + apply Rle_trans with (27 / 2 * (27 / 2) * ac_of (lam (27 / 2) ab)); [|apply UP; lra].
      rewrite ONE; try lra; [nra|]. unfold lam. lra.
Qed.
