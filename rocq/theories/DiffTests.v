(** * Random differential test of the model (not a proof).

    GENERATED by tools/gen_diff.py: the expected results are those of tools/port.py, a second,
    independent reading of the Rust source.  Each case is (operation, build, number), operands,
    expected result; [-1] stands for a panic. *)
From Coq Require Import ZArith List Bool.
Import ListNotations.
From Verif Require Import Rust Tables Model_Base Model_Cmp Model_Round Model_Decimal Model_Arith Model_Serde.
Open Scope Z_scope.
Definition mk (l : list Z) : fd := mkfd (nth 0 l 0) (nth 1 l 0) (skipn 2 l).
Definition flat (d : fd) : list Z := fd_intg d :: fd_frac d :: fd_lsu d.
Definition ecode (e : error) : Z :=
  match e with ConversionSyntax => 0 | DivisionByZero => 1 | Overflow => 2 | ExceedsConversionTargetRange => 3 end.
Definition wrap (o : outcome (list Z)) : list Z :=
  match o with Ret l => l | Panic PFuel => [-2] | Panic _ => [-1] end.
Definition two (o : outcome (result unit * fd)) : list Z :=
  wrap ('(r, d) <- o ;; Ret (match r with Ok _ => 0 :: flat d | Err e => 1 :: ecode e :: flat d end)).
Definition num (o : outcome (result Z)) : list Z :=
  wrap (r <- o ;; Ret (match r with Ok z => [0; z] | Err e => [1; ecode e] end)).
Definition hw (h : hash_write) : Z := match h with WriteU8 z => z | WriteU32 z => z end.
Definition run (op mm x : Z) (a b r bs : list Z) : list Z :=
  let m := if mm =? 0 then Debug else Release in
  let a := mk a in let b := mk b in let r := mk r in
  match op with
  | 0 => two (add_to m a b r)
  | 1 => two (sub_to m a b r)
  | 2 => two (mul_to m a b r)
  | 3 => two (div_to m a b r x)
  | 4 => two (rem_to m a b r)
  | 5 => wrap (c <- cmp m a b ;; Ret [0; match c with Lt => -1 | Eq => 0 | Gt => 1 end])
  | 6 => wrap (d <- round m a x ;; Ret (0 :: flat d))
  | 7 => wrap (d <- round_to m a r x ;; Ret (0 :: flat d))
  | 8 => num (as_i64 m a)
  | 9 => num (as_u64 m a)
  | 10 => wrap (h <- hash m a ;; Ret (0 :: map hw h))
  | 11 => wrap (s <- to_string m a x ;; Ret (0 :: s))
  | 12 => two (from_bytes_str m r bs (x =? 1))
  | 13 => wrap (d <- from_i64 m x ;; Ret (0 :: flat d))
  | _ => wrap (d <- from_u64 m x ;; Ret (0 :: flat d))
  end.
Definition case : Type := (Z * Z * Z) * (list Z * list Z * list Z * list Z) * list Z.
Definition ok (c : case) : bool :=
  let '((op, m, x), (a, b, r, bs), e) := c in
  if list_eq_dec Z.eq_dec (run op m x a b r bs) e then true else false.
Definition cases : list case :=
 [((3, 1, 20), ([27;9;10000;999999997;108030817;0;0;0;0;0;0], [(-89);15;1;0;0;0;0;0;0;0;0], [45;27;999999997;500000002;70276246;1;0;999999996;253065117;40;1000], []), [0;(-92);36;0;0;0;0;0;10000;999999997;108030817;0]);
  ((14, 0, 0), ([(-92);0;660293573;0;0;0;0;0;0;0;0], [], [], []), [0;0;0;0;0;0;0;0;0;0;0;0]);
  ((2, 0, 0), ([5;0;499999998;0;0;0;0;0;0;0;0], [(-108);14;735834637;500000001;580861087;0;0;0;0;0;0], [72;9;999999999;1000000;969898463;999999999;0;347652588;499999998;273013470;0], []), [0;(-101);14;28330726;867917315;588277825;290430542;0;0;0;0;0]);
  ((3, 0, 18446744073709551615), ([27;0;891932720;105101030;500000002;0;0;0;0;0;0], [18;3;0;0;0;0;0;0;0;0;0], [122;16;2;499999999;999999999;999999999;100;0;0;10;942065885], []), [1;1;1;0;0;0;0;0;0;0;0;0;0]);
  ((12, 1, 0), ([18;22;100000;0;999999997;600;99999;499999999;10000000;53786280;999999999], [], [(-108);0;0;0;885495542;0;0;0;0;0;0], [50;48;53;53;46;52;57;56;57;48;50;53;48;51;48;53;49;49;49;48;51;48;54;48;54;54;50;51;48;50;51;54]), [0;4;27;66230236;51110306;498902503;2055;0;0;0;0;0]);
  ((10, 1, 0), ([76;0;999999998;999999999;3;999999999;823672976;614536352;0;470117533;999999999], [], [], []), [0;0;9;0;999999998;999999999;3;999999999;823672976;614536352;0;470117533;999999999]);
  ((8, 1, 0), ([(-121);0;1;0;0;0;0;0;0;0;0], [], [], []), [0;(-1)]);
  ((3, 1, 0), ([7;(-107);999999999;0;999999997;923570287;1;500000000;999999997;7492096;999999999], [27;7;913555142;0;0;3;0;0;0;0;0], [3;44;116290368;887466354;459684732;852695587;902357256;0;0;0;0], []), [(-1)]);
  ((4, 0, 0), ([36;0;530493191;0;0;100000;999999997;500000001;0;999999997;563296729], [(-119);0;499999999;0;0;0;0;0;0;0;0], [9;5;455719217;999999999;2;495347531;7;0;999999999;401069644;999999999], []), [0;8;0;31293192;0;0;0;0;0;0;0;0]);
  ((9, 1, 0), ([(-119);0;0;0;0;0;0;0;0;0;0], [], [], []), [1;3]);
  ((4, 0, 0), ([(-106);0;499999999;0;0;0;0;0;0;0;0], [18;0;1;0;0;0;0;0;0;0;0], [20;0;100;0;0;0;0;0;0;0;0], []), [0;0;0;0;0;0;0;0;0;0;0;0]);
  ((2, 0, 0), ([2;30;105742796;1000;10;2;1000000;750760743;269700666;0;39], [27;4;0;828053418;0;199688866;0;0;0;0;0], [(-110);9;0;0;0;0;0;0;0;0;0], []), [0;36;34;656676728;140978683;301444344;366088503;414888861;400205787;866000000;199688;0]);
  ((3, 0, 40), ([13;15;0;0;0;0;0;0;0;0;0], [27;10;800;408781242;27207581;0;0;0;0;0;0], [27;0;600000000;706860860;93209767;0;0;0;0;0;0], []), [0;1;0;0;0;0;0;0;0;0;0;0]);
  ((11, 0, (-1)), ([27;52;0;0;0;0;0;0;0;499999999;0], [], [], []), [0;52;57;57;57;57;57;57;57;57;48;48;48;48;48;48;48;48;48;46;48;48;48;48;48;48;48;48;48;48;48;48;48;48;48;48;48;48;48;48;48;48;48;48;48;48;48;48;48;48;48;48;48;48;48;48;48;48;48;48;48;48;48;48;48;48;48;48;48;48;48;48]);
  ((3, 1, 93), ([27;0;999999999;999999999;191125718;0;0;0;0;0;0], [(-108);20;0;0;0;0;0;0;0;0;0], [81;(-9);0;0;0;0;0;0;0;0;500000000], []), [1;1;1;0;0;0;0;0;0;0;0;0;0]);
  ((8, 1, 0), ([(-111);0;0;0;0;0;0;0;0;0;0], [], [], []), [0;0]);
  ((1, 1, 0), ([(-102);0;0;0;0;0;0;0;0;0;0], [81;0;0;493618610;106317188;735101732;672304810;442638950;50000;499999998;499930942], [6;9;920693346;531105648;0;0;0;0;0;0;0], []), [0;(-47);0;0;493618610;106317188;735101732;672304810;442638950;50000;499999998;499930942]);
  ((7, 0, (-9)), ([86;0;840556717;500000000;3;0;380020286;3;0;0;500000001], [], [3;0;127935076;0;0;0;0;0;0;0;0], []), [(-1)]);
  ((10, 1, 0), ([63;2;949982600;2;499999998;0;10000;893116369;455485845;874319891;0], [], [], []), [0;0;7;1;949982600;2;499999998;0;10000;893116369;455485845;874319891]);
  ((2, 0, 0), ([(-79);0;0;1000000;423309267;100;0;6000000;0;0;0], [9;24;0;0;0;0;0;0;0;0;0], [10;30;400000;101845950;500000002;1000000;699999999;0;0;3;0], []), [0;1;0;0;0;0;0;0;0;0;0;0]);
  ((1, 0, 0), ([18;17;999999999;390111523;762878647;500000002;0;0;0;0;0], [26;9;375734095;499999998;999999996;177488728;0;0;0;0;0], [63;9;897523467;1;823902093;0;51477814;10000000;999999999;999999997;999999999], []), [0;(-101);17;1;985622571;737121350;499999993;177488728;0;0;0;0]);
  ((3, 1, 4), ([88;(-92);10000000;30;0;999999998;0;1000000;999999996;768918419;2], [13;54;0;0;50;0;0;0;0;0;0], [21;0;0;999999997;100000;0;0;0;0;0;0], []), [(-1)]);
  ((3, 1, 0), ([(-64);0;0;0;0;0;0;999999999;999999999;0;0], [9;6;1;499999998;0;0;0;0;0;0;0], [0;26;90;579477188;0;999999999;999999999;999999999;796173486;756080831;2], []), [0;(-73);9;11936;3496;1024;300;88;26;8;2;0]);
  ((14, 0, 0), ([(-125);43;0;0;0;0;999999997;0;0;0;0], [], [], []), [0;0;0;0;0;0;0;0;0;0;0;0]);
  ((6, 0, 4), ([16;4;0;999999997;999999997;0;0;0;0;0;0], [], [], []), [0;16;4;0;999999997;999999997;0;0;0;0;0;0]);
  ((4, 0, 0), ([23;27;57230440;262173894;680595665;430313418;569686581;0;0;0;0], [1;18;942769560;680595665;0;569686582;0;0;0;0;0], [62;72;999999999;855745517;6000;228790650;1;1000000;999999999;1;90000000], []), [0;0;27;57230440;703586094;188571581;0;0;0;0;0;0]);
  ((1, 1, 0), ([0;9;0;0;0;0;0;0;0;0;0], [(-127);2;0;0;0;0;0;0;0;0;0], [27;6;598344793;999999999;99999;0;0;0;0;0;0], []), [0;1;2;0;0;0;0;0;0;0;0;0]);
  ((3, 1, 4), ([63;9;292101059;246357101;553796183;0;0;0;0;0;0], [(-3);0;999999998;0;0;0;0;0;0;0;0], [(-109);0;0;0;0;0;0;0;0;0;0], []), [(-1)]);
  ((0, 1, 0), ([9;6;462581274;487835312;0;0;0;0;0;0;0], [18;6;0;0;0;0;0;0;0;0;0], [10;11;66458124;0;0;851606193;0;0;0;0;0], []), [0;9;6;462581274;487835312;0;0;0;0;0;0;0]);
  ((8, 1, 0), ([14;0;30;0;0;0;0;0;0;0;0], [], [], []), [0;30]);
  ((4, 1, 0), ([9;0;575998553;24936867;785786047;232626533;153459218;0;0;0;0], [19;8;0;232626534;153459218;0;0;0;0;0;0], [4;8;999999999;999999999;90263497;0;0;466905894;537416106;424407256;10000], []), [0;9;8;0;575998553;0;0;0;0;0;0;0]);
  ((4, 1, 0), ([18;3;256391566;96900000;872075263;696291566;410779995;897462053;0;0;0], [4;21;256391567;0;897462057;0;0;0;0;0;0], [54;1;0;0;485014453;0;639991976;999999999;559438185;0;0], []), [0;0;21;448182386;589355280;542128434;0;0;0;0;0;0]);
  ((3, 1, 9223372036854775808), ([68;0;967247359;638127010;499999999;0;0;0;0;0;0], [44;0;700000;999999999;0;0;0;0;0;0;0], [(-120);8;999999999;999999996;0;0;0;0;0;0;0], []), [0;9;0;500000000;0;0;0;0;0;0;0;0]);
  ((9, 1, 0), ([8;16;0;0;999999999;0;0;0;0;0;0], [], [], []), [0;999999999]);
  ((12, 0, 1), ([9;0;827734275;0;0;0;0;0;0;0;0], [], [9;0;936502517;0;2;0;111305949;999999999;0;999999999;999999999], [45;48;50;57;57;54;50;53;57;57;51;52;52;48;51;56;54;50;56;52;48;54;48;52;51;56;52;56;48;49;55;55;48;49;52;53;54;48;54;54;51;101;48;48;53;55;55]), [1;0;1;0;0;0;0;0;0;0;0;0;0]);
  ((2, 0, 0), ([79;63;0;0;0;0;0;0;0;0;0], [(-101);0;0;0;500000002;569987901;999999997;0;408725359;0;0], [(-121);21;0;599999999;0;0;0;0;0;0;0], []), [0;1;0;0;0;0;0;0;0;0;0;0]);
  ((3, 0, 217), ([(-110);113;0;0;0;0;0;0;0;0;0], [9;0;0;0;0;0;0;0;0;0;0], [(-128);5;999999999;162713210;0;2;287161317;2;906856610;3;0], []), [1;1;1;0;0;0;0;0;0;0;0;0;0]);
  ((6, 0, 0), ([(-96);0;1000000;3;10000;0;0;0;0;0;0], [], [], []), [0;(-96);0;1000000;3;10000;0;0;0;0;0;0]);
  ((4, 1, 0), ([48;0;999999999;1000000;589904032;300000;793793381;706600710;0;0;0], [(-115);19;660067922;1;0;447123514;0;0;0;0;0], [(-65);0;0;0;2;787614124;999999999;895259267;494276508;0;0], []), [0;9;19;658814198;468877052;904052088;442912049;0;0;0;0;0]);
  ((0, 0, 0), ([(-128);39;299999;999999999;239784548;999999996;100;0;764406331;999999999;144577022], [54;4;249611393;999999999;508619471;253764173;286437501;0;499999999;0;0], [(-123);9;0;704196944;0;0;0;0;0;0;0], []), [(-1)]);
  ((3, 1, 100), ([20;46;999999999;873904927;725095071;38828521;300000;0;0;0;0], [19;0;126095072;1000000;0;0;0;0;0;0;0], [49;18;0;0;0;0;0;0;0;0;0], []), [(-1)]);
  ((12, 1, 0), ([4;27;3;884235114;10000;500000001;999999997;0;0;0;0], [], [(-119);45;0;731016302;999999996;160546044;999999996;699999;0;0;0], [55;51;57;48;52;48;48;48;50;48;54;53;51;57;51;48;52;53;51;56;69;43;48;48;57]), [0;29;0;0;539304538;904000206;73;999999996;699999;0;0;0]);
  ((2, 1, 0), ([72;9;597176457;40000000;0;999999998;503786546;0;800000;58373262;0], [(-95);37;0;0;0;0;0;0;0;0;0], [(-47);58;0;0;0;628910105;764421861;40632602;0;0;999999999], []), [0;1;0;0;0;0;0;0;0;0;0;0]);
  ((3, 0, 100), ([1;0;0;0;0;0;0;0;0;0;0], [22;9;863185940;20;70000;865671673;999999997;0;453813430;0;373238235], [36;36;0;0;0;0;0;0;0;0;0], []), [0;1;0;0;0;0;0;0;0;0;0;0]);
  ((4, 1, 0), ([63;29;700000000;467297694;202939298;1;0;0;0;0;0], [70;0;792045563;0;0;0;0;0;0;0;0], [36;12;999999999;999999997;999999996;765352295;3;500000001;150029101;999999999;114172962], []), [(-1)]);
  ((6, 0, 82), ([(-124);23;10;0;499999999;999999999;0;0;999999999;999999999;2], [], [], []), [(-1)]);
  ((10, 1, 0), ([48;0;367164326;0;999999999;2;0;747328948;100;999999999;999999996], [], [], []), [0;0;6;0;367164326;0;999999999;2;0;747328948]);
  ((4, 0, 0), ([14;0;0;0;0;0;0;0;0;0;0], [81;0;0;0;0;0;0;0;0;999999996;0], [39;17;862316407;221650158;500000000;500000002;858866783;500000001;307317627;0;0], []), [0;1;0;0;0;0;0;0;0;0;0;0]);
  ((4, 0, 0), ([36;8;247045463;875405890;0;0;100000000;0;0;0;0], [0;54;999999999;500000000;999999999;318608056;0;500000001;1000;806088549;999999999], [(-110);38;0;89999999;102486722;0;0;999999996;10;0;0], []), [0;0;54;860584670;811972107;857735557;343592197;383658502;72178784;0;0;0]);
  ((4, 0, 0), ([60;17;0;0;0;0;946619705;999999997;544649360;86974063;796693988], [18;0;692688104;10000;0;0;0;0;0;0;0], [(-128);13;0;0;0;0;999999998;0;40000000;999999999;124786608], []), [0;13;17;0;0;524537816;3267;0;0;0;0;0]);
  ((0, 0, 0), ([5;(-97);0;0;0;0;0;0;0;0;0], [7;72;0;0;0;0;341862762;939889965;1;908652891;10000000], [14;40;(-1000000000);2;251455876;10000000;999999996;25519537;499999999;723840788;0], []), [0;7;72;0;0;0;0;341862762;939889965;1;908652891;10000000]);
  ((3, 0, 4), ([63;(-111);999999999;500000000;814779553;399999999;0;0;0;0;0], [72;7;0;0;0;0;0;999999999;1000;0;500000001], [49;20;0;0;0;0;0;0;0;0;0], []), [(-1)]);
  ((3, 1, 9223372036854775808), ([14;16;700000000;374045311;724906877;815288279;281084671;391977939;318017957;757123689;0], [72;0;870791367;603953331;980904948;999999999;0;0;0;0;0], [0;0;0;1;999999999;74592852;582129093;0;999999999;990455883;999999999], []), [0;0;18;0;0;0;0;0;0;0;0;0]);
  ((4, 1, 0), ([5;3;40793367;353380300;987122270;314913761;576621545;0;0;0;0], [(-104);9;999999999;899999999;164749012;0;0;0;0;0;0], [37;30;500000002;10000000;0;3;0;0;0;0;0], []), [0;5;9;40793367;353380300;0;0;0;0;0;0;0]);
  ((10, 0, 0), ([27;1;500000000;500000002;619485449;0;0;0;0;0;0], [], [], []), [0;0;3;1;500000000;500000002;619485449;0]);
  ((4, 1, 0), ([12;18;0;0;0;916109491;633881539;0;999999999;0;2], [(-119);(-41);0;0;0;0;0;0;0;0;0], [(-92);36;999999998;5961639;1;1;0;0;0;0;0], []), [(-1)]);
  ((4, 1, 0), ([(-83);4;1;707150830;1;0;0;0;0;0;0], [(-110);18;853575415;0;0;0;0;0;0;0;0], [102;10;699168432;49;999999999;33958874;1000000;0;999999999;15149902;303717503], []), [0;(-128);18;146424585;0;0;0;0;0;0;0;0]);
  ((1, 1, 0), ([27;29;999999999;999999998;1;0;789190263;799999999;0;264870512;800238744], [(-110);0;0;0;0;0;0;0;0;0;0], [27;14;0;40000000;999999999;970192567;467108013;0;0;0;0], []), [0;27;29;999999999;999999998;1;0;789190263;799999999;0;264870512;800238744]);
  ((2, 1, 0), ([23;0;999999999;0;601776613;0;499999998;0;3;500000000;0], [94;0;999999999;499999;500000000;1000000;0;0;0;0;0], [41;8;363993664;0;0;0;0;0;0;0;0], []), [1;2;1;0;0;0;0;0;0;0;0;0;0]);
  ((8, 1, 0), ([(-101);17;4999;999999999;0;0;0;0;0;0;0], [], [], []), [0;(-1)]);
  ((4, 1, 0), ([36;26;456621671;622846742;999991197;399998;0;0;0;0;0], [9;26;0;0;399999;0;0;0;0;0;0], [18;0;90;0;0;0;0;0;0;0;0], []), [0;0;26;456621671;622846742;391196;0;0;0;0;0;0]);
  ((1, 1, 0), ([72;0;0;0;0;0;0;0;888461257;2;0], [9;8;214651773;999999998;0;0;0;0;0;0;0], [56;0;0;0;0;0;0;499999999;100000;0;0], []), [(-1)]);
  ((9, 1, 0), ([20;4;0;0;999999999;1000;0;0;0;0;0], [], [], []), [1;3]);
  ((0, 1, 0), ([(-83);0;500000002;75730609;150259156;3;499999998;0;0;0;0], [23;9;686025660;0;442043964;661007214;0;0;0;0;0], [(-65);0;0;859232039;634728444;51333729;999999996;785983133;41838453;0;0], []), [0;(-83);9;313974340;500000001;633686645;489251941;2;499999998;0;0;0]);
  ((3, 0, 4), ([(-119);0;848679247;1;0;0;0;0;0;0;0], [1;23;924339624;0;0;0;0;0;0;0;0], [73;0;500000001;649454710;796740239;2213915;830170767;999999999;2;814257890;500000001], []), [0;(-101);27;11843092;94719540;633329024;233933487;30688867;918146561;0;0;0]);
  ((2, 0, 0), ([18;13;0;0;0;0;0;0;0;0;0], [18;72;0;0;87491438;4999999;999999998;0;2;8999;0], [5;9;0;0;0;0;0;0;0;0;0], []), [0;1;0;0;0;0;0;0;0;0;0;0]);
  ((3, 1, 18446744073709551615), ([11;4;999999999;999999999;0;76429354;6999;0;0;0;0], [(-128);29;0;762882136;0;0;0;0;0;0;0], [(-34);12;542188896;499999998;955129598;936921677;500000000;0;0;0;0], []), [0;(-100);36;545222141;467372013;581621840;214762758;309042098;469237789;310818477;1;0]);
  ((7, 0, 97), ([6;11;0;0;0;0;0;0;0;0;0], [], [9;0;294250266;0;0;0;0;0;0;0;0], []), [(-1)]);
  ((12, 0, 0), ([1;16;100000000;999999999;796813747;6999999;0;0;999999999;80000000;572457889], [], [54;3;659165050;999999996;542746789;0;5000;999999998;97038743;191188903;0], [43;57;57;48;51;56;52;55;49;49;55;50;57;50;48;49;56;49;50;52;50;49;55;48;52;54;51;56;54;57;57;57;57;50;55;48;49;48;48;48;57;48;53;53;53;55;49;56;57;48;50;53;56;55;54;57;52;57;48;51;52;53;53;56;48;57]), [0;65;0;903455809;902587694;90555718;999270100;170463869;920181242;38471172;99;0]);
  ((7, 1, 255), ([18;9;0;0;0;0;0;0;0;0;0], [], [29;0;183866443;0;999999999;10388347;0;0;0;0;0], []), [(-1)]);
  ((10, 0, 0), ([(-86);27;299999;918622089;2;999999997;0;999999996;999999998;2;0], [], [], []), [0;1;5;3;299999;918622089;2;999999997;0;999999996;999999998;2]);
  ((2, 1, 0), ([5;3;238507668;6;999999996;0;612376897;798658172;0;1;499999999], [89;7;0;0;0;0;0;0;0;0;0], [(-49);0;4999999;499999999;0;1000000;1000000005;100000000;607626709;999999999;2], []), [0;1;0;0;0;0;0;0;0;0;0;0]);
  ((3, 0, 9), ([57;2;0;0;0;0;0;999999996;0;0;0], [(-101);0;0;0;0;0;0;0;0;0;0], [(-56);0;0;0;0;0;0;0;9;0;0], []), [1;1;1;0;0;0;0;0;0;0;0;0;0]);
  ((4, 1, 0), ([18;0;173102074;985702185;431794369;50000006;9;0;0;0;0], [27;0;673102073;69964578;100000000;0;0;0;0;0;0], [30;17;0;0;0;0;0;0;0;0;0], []), [0;18;0;173102074;985702185;0;0;0;0;0;0;0]);
  ((5, 1, 0), ([(-126);18;100000000;0;0;0;0;0;0;0;0], [2;18;100000000;0;0;0;0;0;0;0;0], [], []), [0;(-1)]);
  ((2, 1, 0), ([44;19;29999999;999999996;491786180;999999997;146075302;1;29999;0;912723114], [36;0;614224178;999999999;400;734805529;0;0;0;0;0], [61;8;10000;1;5000000;401499733;0;0;999999996;999999999;0], []), [0;81;0;102801125;200356565;442465598;844262942;294739171;854172068;431064471;22043;0]);
  ((2, 0, 0), ([(-92);9;0;0;670539034;0;20000000;0;0;0;0], [(-99);27;499999998;999999997;10000000;(-2147483648);157149870;201830114;1;999999996;0], [16;26;500000002;979573529;49;280503840;898449144;999999997;999999999;349506824;0], []), [0;72;9;323652413;970539032;(-904010642);603053970;819244996;162924330;283142998;24036602;0]);
  ((4, 1, 0), ([18;9;0;0;0;0;0;0;0;0;0], [10;0;0;0;0;0;0;0;0;0;0], [(-101);35;0;0;500000002;0;0;0;0;0;0], []), [1;1;1;0;0;0;0;0;0;0;0;0;0]);
  ((3, 1, 4), ([21;51;0;0;0;0;0;0;0;0;0], [3;0;1;0;0;0;0;0;0;0;0], [36;44;0;0;0;0;0;0;0;0;0], []), [0;1;0;0;0;0;0;0;0;0;0;0]);
  ((1, 0, 0), ([22;0;2;500000002;416162680;0;0;0;0;0;0], [45;0;0;100;899999;499999998;19999999;0;0;0;0], [(-109);15;678396077;900000;691713636;10000;538974143;0;0;0;0], []), [0;(-83);0;999999998;500000097;584737318;499999997;19999999;0;0;0;0]);
  ((1, 1, 0), ([(-74);20;0;0;0;2;535786832;400000000;0;206906643;999999999], [61;0;0;999999999;0;0;705473865;100000;999999999;0;0], [14;0;0;0;0;0;0;0;0;0;0], []), [(-1)]);
  ((2, 0, 0), ([51;22;0;0;0;81755117;0;11950867;1000;826734001;3], [18;0;0;0;0;0;0;0;0;0;0], [16;0;0;0;0;0;0;0;0;0;0], []), [0;1;0;0;0;0;0;0;0;0;0;0]);
  ((6, 1, 14), ([(-65);1;0;0;0;56597148;999999999;243352641;999999999;361305825;0], [], [], []), [0;(-65);14;0;0;0;0;56597148;999999999;243352641;999999999;361305825]);
  ((3, 1, 167), ([9;9;1;0;0;0;0;0;0;0;0], [(-119);9;999999999;819050650;0;0;0;0;0;0;0], [0;12;0;0;0;0;0;0;0;0;0], []), [(-1)]);
  ((4, 1, 0), ([17;8;1000000;0;0;0;0;0;0;0;0], [14;9;500000002;827373652;999999999;0;0;0;0;0;0], [(-56);0;0;0;0;0;0;0;90464285;0;0], []), [0;17;9;1000000;0;0;0;0;0;0;0;0]);
  ((11, 0, 244), ([(-110);(-17);168444466;796997459;69822505;599999;0;0;0;0;0], [], [], []), [(-1)]);
  ((9, 1, 0), ([(-111);0;999999997;791213090;653585656;922532389;745379022;148708287;30000;696828222;0], [], [], []), [1;3]);
  ((9, 1, 0), ([68;0;0;0;0;0;0;0;0;0;0], [], [], []), [0;0]);
  ((6, 0, 65), ([3;65;0;0;0;499999;77198709;999999997;500000001;374656729;54785133], [], [], []), [0;3;65;0;0;0;499999;77198709;999999997;500000001;374656729;54785133]);
  ((3, 1, 40), ([(-128);0;972516491;0;0;20000000;0;359331222;591986200;0;40], [(-101);27;999999999;700000;1000000;999999999;0;999999996;805726863;952428711;0], [15;9;418573632;50000;1000;2;3;382749977;0;2;361089965], []), [0;1;0;0;0;0;0;0;0;0;0;0]);
  ((6, 1, 300), ([68;18;2;2;2;831694193;0;0;0;89999999;500000000], [], [], []), [(-1)]);
  ((4, 0, 0), ([9;0;10000000;0;999999999;10;0;0;0;719980361;354747353], [36;0;540122668;893984732;60;500000000;0;111929492;10000;565232074;599], [48;0;0;0;500000001;1000;914385359;633437625;0;0;0], []), [0;9;0;10000000;0;0;0;0;0;0;0;0]);
  ((2, 1, 0), ([(-48);0;804751278;659703961;0;152808472;514505805;0;0;0;0], [(-49);0;0;0;0;0;0;0;0;0;0], [37;23;0;1;0;784978951;999999999;999999998;500000001;90000000;0], []), [0;1;0;0;0;0;0;0;0;0;0;0]);
  ((1, 1, 0), ([(-124);9;500000000;392523623;900;999999997;953347213;242953612;3;632363525;338485243], [108;74;707965360;0;3;0;999999998;499999998;702849601;999999997;642404898], [9;11;0;0;0;0;0;0;0;0;0], []), [(-1)]);
  ((3, 1, 4), ([0;11;999999999;0;500000002;89999;999999997;0;0;112260436;744561637], [36;34;899999;0;70771573;0;0;999999999;1;0;0], [(-94);42;100000;0;1;490604281;166287157;499999999;574975067;0;999999999], []), [0;0;36;499999999;0;0;0;0;0;0;0;0]);
  ((4, 0, 0), ([27;0;1;0;0;0;0;0;0;0;0], [(-119);0;1;0;0;0;0;0;0;0;0], [(-103);0;466190595;499999999;38899489;0;0;0;0;0;0], []), [0;1;0;0;0;0;0;0;0;0;0;0]);
  ((2, 0, 0), ([63;0;1;3;0;500000000;769797025;100000000;100000;0;0], [36;9;812742410;578262867;6;913980909;999999996;0;0;0;0], [103;18;709207434;999999999;999999999;323828855;500000001;132620847;399522293;(-1000000000);3], []), [1;2;1;0;0;0;0;0;0;0;0;0;0]);
  ((12, 1, 0), ([25;54;179745648;999999999;500000001;1;10;0;0;999999999;999999997], [], [18;0;3;51676893;0;0;0;0;0;0;0], [48;48;53;50;49;48;57;57;56;69;43;48;48;53]), [0;14;0;99800000;521;0;0;0;0;0;0;0]);
  ((2, 0, 0), ([(-33);0;344922676;871643431;999999999;0;705930925;1000000;999999996;500000001;930148630], [43;0;0;0;0;0;0;0;0;0;0], [(-115);14;0;0;0;0;0;0;0;0;0], []), [0;1;0;0;0;0;0;0;0;0;0;0]);
  ((3, 0, 1), ([122;14;0;0;0;0;0;0;0;0;0], [18;20;300000;29999;999999999;113809509;0;0;0;0;0], [36;0;999999996;799999999;500000000;999999999;0;0;0;0;0], []), [(-1)]);
  ((12, 0, 0), ([27;0;0;0;0;0;0;0;0;0;0], [], [(-121);0;0;0;0;0;0;0;0;0;0], [45;51;52;49;48;55;57;48;56;48;48]), [0;(-118);0;410790800;3;0;0;0;0;0;0;0]);
  ((0, 1, 0), ([10;9;426195006;999999999;0;0;0;0;0;0;0], [29;9;2;202607147;0;0;1;0;0;0;0], [9;0;999999998;1;477491744;400;999999999;5999999;0;357206932;999999999], []), [0;36;9;426195008;202607146;1;0;1;0;0;0;0]);
  ((3, 1, 4), ([49;0;0;330560644;3;657521834;291586249;0;0;0;0], [53;16;0;665280322;1;0;0;0;0;0;0], [63;11;789434212;58100452;0;999999996;500000002;500000000;500000001;799999999;1000], []), [0;45;27;0;0;0;0;0;2;0;175097397;0]);
  ((11, 0, (-1)), ([46;24;0;0;0;0;0;1;0;0;10], [], [], []), [0;49;48;48;48;48;48;48;48;48;48;48;48;48;48;48;48;48;48;48;48;48;48;48;48;48;48;48;48;49;48;48;48;48;48;48;48;48;48;48;48;48;48;48;48;48;48;48;46;48;48;48;48;48;48;48;48;48;48;48;48;48;48;48;48;48;48;48;48;48;48;48;48]);
  ((12, 1, 1), ([22;13;0;0;0;0;0;0;0;0;0], [], [(-110);18;933415377;999999999;999999997;0;0;0;0;0;0], [46;53;57;51;52;53;54;57;50;56]), [0;0;9;593456928;0;0;0;0;0;0;0;0]);
  ((4, 1, 0), ([18;0;960537591;968960915;147919829;27547415;188397940;850525;0;0;0], [14;14;754741484;85052518;0;0;0;0;0;0;0], [18;18;717579933;999999999;0;281618806;0;0;0;0;0], []), [0;0;14;859052596;19165372;0;0;0;0;0;0;0]);
  ((0, 1, 0), ([(-115);9;0;0;0;0;0;0;0;0;0], [36;0;0;0;999999999;999999999;0;0;0;0;0], [45;9;0;0;0;0;0;0;0;0;0], []), [0;36;0;0;0;999999999;999999999;0;0;0;0;0]);
  ((12, 0, 0), ([27;0;948663741;49999999;7405179;0;0;0;0;0;0], [], [5;0;198255492;935952361;999999998;0;657650222;349159186;898170240;(-2147483648);372730441], [43;48;53;56;54;48;51;54;55;49;50;56;55;48;57;50;51;56;48;53;51;48;53;53;57;57;57;48;48;56;48;57;57;56;48;56;54;56;49;52;50;48;55;49;51;51;57;57;51;55;57;48;57;57;50;57;49;56;48;57;49;48;48;49;54;56;46;53;52;53;57;55;57;56;51;54;48;55;50;55;48;53;53;48;56;101;48]), [1;0;5;0;198255492;935952361;999999998;0;657650222;349159186;898170240;(-2147483648);372730441]);
  ((13, 1, (-1000000000)), ([9;45;999999999;3;499999998;500000000;59999999;900000000;0;0;0], [], [], []), [0;(-110);0;0;1;0;0;0;0;0;0;0]);
  ((0, 1, 0), ([(-128);0;0;0;0;0;0;0;0;0;0], [(-110);0;1999999;0;0;0;0;0;0;0;0], [27;5;0;0;0;0;0;0;0;0;0], []), [0;(-110);0;1999999;0;0;0;0;0;0;0;0]);
  ((3, 0, 18446744073709551615), ([(-119);2;999999999;999599999;39999;0;0;0;0;0;0], [36;0;400000;0;0;0;0;0;0;0;0], [(-11);5;0;500000002;3;0;0;0;0;0;0], []), [0;(-124);9;999999999;2498;0;0;0;0;0;0;0]);
  ((14, 1, 15532987762526604192), ([0;0;0;0;0;0;0;0;0;0;0], [], [], []), [0;27;0;526604192;532987762;15;0;0;0;0;0;0]);
  ((3, 0, 4), ([42;37;999999999;637805792;787266130;999999999;700000000;10000000;0;0;0], [(-103);28;780556293;1000000;999999998;0;884201756;0;663649202;0;0], [18;0;0;0;0;0;0;0;0;0;0], []), [(-1)]);
  ((14, 0, 1000000000000000000), ([20;27;454308074;300000000;0;849694550;600;10;500000000;999999996;232952288], [], [], []), [0;27;0;0;0;1;0;0;0;0;0;0]);
  ((3, 0, 4), ([18;0;999999999;999999299;500000348;0;0;0;0;0;0], [63;7;0;700;1;0;0;0;0;0;0], [(-126);3;0;0;0;0;0;0;0;0;0], []), [0;9;18;314001180;979998;999998600;0;0;0;0;0;0]);
  ((4, 1, 0), ([30;18;0;0;0;0;0;0;0;0;0], [45;36;417458430;0;999999999;218308584;500000002;500000001;8000000;0;163912171], [7;7;490531725;100;9000;999999996;406183514;571125158;212411394;100000;999999996], []), [0;1;0;0;0;0;0;0;0;0;0;0]);
  ((4, 1, 0), ([0;0;500000002;59;527554461;582238778;0;0;0;0;0], [(-92);14;1;0;0;0;0;0;0;0;0], [58;0;0;0;0;0;0;0;0;0;0], []), [0;1;0;0;0;0;0;0;0;0;0;0]);
  ((10, 0, 0), ([(-112);0;0;0;0;0;0;0;0;0;0], [], [], []), [0;1;2;0;0;0]);
  ((4, 1, 0), ([68;9;999999999;4000099;550505600;387;0;0;0;0;0], [23;14;0;100;0;0;0;0;0;0;0], [(-73);7;999999998;636679296;799999999;0;0;0;0;0;0], []), [0;0;14;0;99;0;0;0;0;0;0;0]);
  ((3, 0, 4), ([11;10;99999999;200000000;999999998;99999996;200000002;0;0;0;0], [13;2;1;2;0;0;0;0;0;0;0], [(-106);23;30000000;0;8999999;748982557;0;0;0;0;0], []), [0;17;27;440625000;118749999;862500000;474999999;49999998;0;0;0;0]);
  ((10, 1, 0), ([54;23;999999996;999999997;500000001;0;999999999;0;999999999;479653559;0], [], [], []), [0;0;6;3;999999996;999999997;500000001;0;999999999;0;999999999;479653559;0]);
  ((2, 1, 0), ([9;21;499999998;500000002;220947714;999999999;994320674;4;3;0;42229857], [15;0;500000002;0;0;500000001;500000001;930747542;500000001;999999999;829193967], [27;27;0;0;0;0;0;0;0;0;0], []), [0;27;21;999999996;250000003;691895430;610473855;500000001;0;0;0;0]);
  ((12, 1, 0), ([36;0;0;0;0;999999999;0;0;0;0;0], [], [36;9;396912384;499999999;451846341;121963961;999999998;0;0;0;0], [48;48;51;52;53;57;51;52;48;57;50;50;49;48;55;48;48;51;50;49;55;52;57;53;53;52;48;55;48;52;55;48;48;50;55;57;52;57;52;50;46]), [0;40;0;2794942;955407047;70032174;593409221;34;0;0;0;0]);
  ((4, 1, 0), ([18;0;0;0;0;0;0;0;0;0;0], [(-101);18;0;0;0;535772704;1;0;0;0;0], [0;67;1;564604608;999999999;299999;999999998;48356330;10;952138701;0], []), [0;1;0;0;0;0;0;0;0;0;0;0]);
  ((11, 0, (-5)), ([27;2;654878635;999999999;833364481;646364663;0;0;0;0;0], [], [], []), [0;54;52;54;51;54;52;54;54;51;56;51;51;51;54;52;52;56;49;57;57;57;57;57;57;57;57;57;46;54;53]);
  ((1, 0, 0), ([(-101);0;0;0;0;0;0;0;0;0;0], [27;3;464999038;938477082;276414179;500000001;0;0;0;0;0], [35;4;0;0;0;0;0;0;0;0;0], []), [0;(-101);3;464999038;938477082;276414179;500000001;0;0;0;0;0]);
  ((4, 1, 0), ([88;0;272579502;999999996;661075745;0;0;0;0;0;0], [93;10;1;0;0;0;0;0;0;0;0], [18;14;499999999;691516296;0;0;0;0;0;0;0], []), [(-1)]);
  ((2, 0, 0), ([27;0;0;0;0;0;0;0;0;0;0], [9;27;1;589808159;634982513;10;0;0;0;0;0], [9;40;0;0;0;0;0;0;0;0;0], []), [0;1;0;0;0;0;0;0;0;0;0;0]);
  ((3, 0, 4), ([(-92);14;499999999;90000;0;8999;100;100;19;999999999;38839433], [74;27;499999999;362101210;0;2;0;0;0;0;0], [(-105);0;0;0;0;0;0;0;0;0;0], []), [(-1)]);
  ((2, 0, 0), ([0;0;0;0;0;0;0;0;0;0;0], [72;81;0;0;500000000;186650977;999999996;500000002;634989446;112436312;254480221], [86;0;0;0;0;0;0;0;0;0;0], []), [0;1;0;0;0;0;0;0;0;0;0;0]);
  ((4, 1, 0), ([78;25;420485243;500000002;500000000;0;0;0;0;0;0], [(-101);0;1;0;0;0;0;0;0;0;0], [45;0;999999999;667948041;100;485090440;30000000;0;0;0;0], []), [(-1)]);
  ((4, 1, 0), ([9;0;25923718;0;0;0;0;0;0;0;0], [(-101);26;628511035;0;835282067;347977382;0;554056172;868081942;1000;66653175], [27;0;322139865;10000;662204195;879927327;555426681;71844535;0;999999999;0], []), [0;9;26;0;0;0;25923718;0;0;0;0;0]);
  ((3, 1, 18446744073709551615), ([(-47);0;687136363;0;208278290;0;999999998;23266230;145572788;0;479990933], [27;11;0;1;999999999;10000000;327255426;0;0;123762380;0], [116;16;10;0;0;500000000;50000;0;0;0;0], []), [(-1)]);
  ((4, 1, 0), ([36;0;10;0;500000000;889191741;342239476;999999999;397498011;305228491;10], [80;0;0;0;599999999;999999999;8;1000;1;999999996;0], [63;25;0;0;0;999999999;0;6460229;0;999999998;8000], []), [0;36;0;10;0;500000000;889191741;0;0;0;0;0]);
  ((8, 1, 0), ([13;6;0;0;0;0;0;0;0;0;0], [], [], []), [0;0]);
  ((3, 1, 9), ([(-110);10;0;0;0;0;0;0;0;0;0], [20;0;499999999;9999;10000000;0;0;0;0;0;0], [9;7;0;0;0;0;0;0;0;0;0], []), [0;1;0;0;0;0;0;0;0;0;0;0]);
  ((4, 0, 0), ([27;0;999999997;2;900000000;999999998;100000;999999999;10000;637294851;3], [(-101);0;0;90000000;999999997;0;0;0;0;0;0], [(-110);31;0;0;0;0;0;0;0;0;0], []), [0;27;0;999999997;2;900000000;0;0;0;0;0;0]);
  ((13, 0, 7804453629353009572), ([6;63;0;801756131;28655190;865989902;100;999999999;299999;507456933;0], [], [], []), [0;27;0;353009572;804453629;7;0;0;0;0;0;0]);
  ((7, 1, (-1)), ([(-119);0;500000000;0;0;0;0;0;0;0;0], [], [18;0;999999996;999999999;913376525;891719939;78091642;1000000000;1;125352561;500000001], []), [0;(-119);0;500000000;0;0;0;0;0;0;0;0]);
  ((12, 1, 1), ([(-94);14;898436249;0;0;69999;0;79;10000;999999999;499999998], [], [36;27;0;0;0;0;0;0;2;0;0], [57;50;51;51;48;55;69;45;48;54;57]), [1;0;1;0;0;0;0;0;0;0;0;0;0]);
  ((1, 0, 0), ([(-85);36;0;471620631;500000001;0;0;10;500000000;0;999999999], [(-119);0;0;0;0;0;0;0;0;0;0], [22;9;499999999;6286196;104400506;999999997;699503047;10000000;7733849;891103308;1000000005], []), [0;(-85);36;0;471620631;500000001;0;0;10;500000000;0;999999999]);
  ((2, 1, 0), ([(-106);0;0;0;0;0;0;0;0;0;0], [6;9;999999999;705822594;205050326;4000;999999999;0;579956391;70802228;0], [27;6;63231432;0;0;0;0;0;0;0;0], []), [0;1;0;0;0;0;0;0;0;0;0;0]);
  ((12, 0, 0), ([27;6;5;934121256;2;0;0;0;0;0;0], [], [3;38;999999997;3;1;1000000;0;771701061;0;0;0], [52;52;57;53;48;55;48;48;48;54;49;57;53;51;56;48;48;54;49;50;48;56;49;48;56;53;53;50;57;54;56;56;56;51;48;52;55;53;52;55;48;55;54;55;57;57;48;57;54;48;57;55;51;57;57;57;54;48;54;52;50;51;48;48;53;57;46;50]), [1;0;3;38;999999997;3;1;1000000;0;771701061;0;0;0]);
  ((4, 0, 0), ([(-39);2;957662839;58;0;0;0;0;0;0;0], [(-125);10;982627714;0;0;0;0;0;0;0;0], [18;38;869402774;992515162;0;999999999;0;536464332;0;0;0], []), [(-1)]);
  ((4, 1, 0), ([5;9;557445000;560991389;0;0;0;0;0;0;0], [(-128);40;0;0;0;0;0;0;0;0;0], [36;42;999999999;2;647994088;1;99999;0;236290043;0;867671810], []), [1;1;1;0;0;0;0;0;0;0;0;0;0]);
  ((4, 1, 0), ([36;31;0;0;0;0;0;0;0;0;0], [(-119);24;1;0;0;0;0;0;0;0;0], [(-101);0;0;0;0;0;0;0;0;0;0], []), [0;1;0;0;0;0;0;0;0;0;0;0]);
  ((6, 1, (-300)), ([123;0;0;0;0;0;0;0;0;0;0], [], [], []), [(-1)]);
  ((13, 0, 0), ([9;22;500000001;596309299;500000001;42007120;153233028;0;0;673028552;999999999], [], [], []), [0;0;0;0;0;0;0;0;0;0;0;0]);
  ((3, 0, 136), ([9;9;1000;999999998;39999999;890615956;0;30000;999999998;67678945;399], [(-128);54;500000002;0;0;10000000;100000000;2;499999998;376136188;15466123], [0;18;1000;999999999;0;0;0;0;0;0;0], []), [(-1)]);
  ((8, 0, 0), ([(-111);0;1;500000001;0;0;0;0;0;0;0], [], [], []), [0;(-500000001000000001)]);
  ((3, 1, 4), ([9;27;1;0;134410682;865589317;0;0;0;0;0], [16;0;865589318;0;0;0;0;0;0;0;0], [(-119);0;0;0;0;0;0;0;0;0;0], []), [0;0;36;1;0;0;999999999;0;0;0;0;0]);
  ((3, 0, 40), ([18;27;933503199;16180800;153596958;216255100;335151320;0;0;0;0], [0;0;933503200;0;0;0;0;0;0;0;0], [(-124);0;0;0;0;0;0;0;0;0;0], []), [1;1;1;0;0;0;0;0;0;0;0;0;0]);
  ((4, 1, 0), ([(-121);0;999999996;0;0;0;0;0;0;0;0], [8;18;0;100000;90137098;0;0;0;0;0;0], [13;(-57);0;0;0;0;0;0;0;0;0], []), [0;(-121);18;0;998900000;8491917;0;0;0;0;0;0]);
  ((4, 0, 0), ([27;47;947325229;0;0;0;0;0;0;0;0], [(-101);5;1;0;0;0;0;0;0;0;0], [0;9;755602995;0;0;0;0;0;0;0;0], []), [0;27;47;947325229;0;0;0;0;0;0;0;0]);
  ((3, 1, 100), ([109;5;80242013;1000;731565812;1000000;500000000;0;0;0;0], [18;0;317225740;427534004;0;0;0;0;0;0;0], [(-110);39;500000001;0;279319799;0;0;0;0;0;0], []), [(-1)]);
  ((4, 0, 0), ([63;38;957077910;999999999;1;388522344;0;0;0;0;0], [20;9;1;0;0;0;0;0;0;0;0], [36;3;0;70000000;884992700;0;0;0;0;0;0], []), [(-1)]);
  ((3, 0, 9), ([27;27;999999999;996578587;999999999;421411999;6842827;0;0;0;0], [(-50);74;999999999;999999999;999;2;0;0;0;0;0], [0;19;999999999;0;999999999;0;0;0;0;0;0], []), [(-1)]);
  ((2, 0, 0), ([1;3;1000;499999999;0;0;0;0;0;0;0], [24;27;999999998;999999999;999999999;0;0;0;0;0;0], [18;17;1000000;0;0;0;1000000;0;0;999999999;655999398], []), [0;27;30;999998000;1;999999999;999;499999999;0;0;0;0]);
  ((3, 0, 4), ([73;0;459849096;716926056;139;0;0;0;0;0;0], [15;0;707752097;139577348;0;0;0;0;0;0;0], [(-71);6;0;0;0;0;0;0;0;0;0], []), [(-1)]);
  ((0, 1, 0), ([9;59;0;206197997;0;89999;0;999999999;679175420;1;904268320], [11;0;0;0;0;0;0;0;0;0;0], [72;0;0;0;0;556609451;999999997;181127994;100;0;0], []), [0;9;59;0;206197997;0;89999;0;999999999;679175420;1;904268320]);
  ((3, 1, 9223372036854775808), ([(-119);0;10000;0;500000002;500000000;999999999;599514728;343130198;999999999;999999999], [18;11;795896239;992547257;999999999;999999999;550056126;0;2147483647;639751507;292998751], [34;0;0;0;0;0;0;0;0;0;0], []), [0;(-128);18;10000;0;0;0;0;0;0;0;0]);
  ((12, 0, 1), ([9;12;9000000;10;499999998;0;0;0;0;0;0], [], [0;52;999999999;0;61822481;0;2;108943504;0;0;0], [45;54;48;50;48;57]), [0;(-123);0;60209;0;0;0;0;0;0;0;0]);
  ((1, 1, 0), ([18;5;0;0;0;0;0;0;0;0;0], [36;9;59999;641858195;500000002;500000001;999999999;0;0;0;0], [8;0;999999999;0;0;0;0;0;0;0;0], []), [0;(-92);9;59999;641858195;500000002;500000001;999999999;0;0;0;0]);
  ((10, 0, 0), ([49;9;397859179;999999999;0;999999999;1;0;3;0;0], [], [], []), [0;0;6;1;397859179;999999999;0;999999999;1;0;3]);
  ((1, 1, 0), ([21;9;100000;0;0;0;0;0;0;0;0], [24;2;713167860;100;839166598;57990198;0;0;0;0;0], [33;0;0;180591694;879392765;599;0;0;0;0;0], []), [0;(-101);9;713067860;100;839166598;57990198;0;0;0;0;0]);
  ((12, 1, 0), ([36;23;640304919;100;499999998;999999999;0;0;0;0;0], [], [27;13;0;0;96596562;341885313;0;0;0;0;0], [53;48;56;53;48;53;48;50;53;57;57;53;55;54;55;57;51;55;51;51;57;48;51;56;54;53;57;48;46;57;50;55;56;49;54;48;49;48;49;48;49;57;57;51;48;57]), [0;28;17;101993090;927816010;390386590;957679373;85050259;5;0;0;0]);
  ((3, 0, 9), ([(-109);8;999999999;999999999;0;10000000;0;0;0;0;0], [36;0;0;119316579;20000000;0;0;0;0;0;0], [(-35);0;0;0;0;0;0;0;0;0;0], []), [0;(-128);18;17085592;499999997;0;0;0;0;0;0;0]);
  ((11, 1, (-5)), ([57;0;0;0;0;0;0;0;0;0;0], [], [], []), [0;48]);
  ((6, 0, 42), ([7;15;0;1000000;499999998;835359508;888823618;671346160;999999999;80000;10000], [], [], []), [0;7;42;0;1000000;499999998;0;1000000;499999998;999999999;80000;10000]);
  ((11, 1, 33), ([54;13;999999999;0;74913239;1000;59;500000000;44015275;800000000;0], [], [], []), [0;56;48;48;48;48;48;48;48;48;48;52;52;48;49;53;50;55;53;53;48;48;48;48;48;48;48;48;48;48;48;48;48;48;48;53;57;48;48;48;48;48;49;48;48;48;48;55;52;57;49;51;50;51;57;46;48;48;48;48;48;48;48;48;48;57;57;57;57;57;57;57;57;57;48;48;48;48;48;48;48;48;48;48;48;48;48;48;48]);
  ((12, 1, 1), ([53;2;500000002;0;999999999;79525014;0;0;0;0;0], [], [42;(-90);0;0;0;0;0;0;0;0;0], [48;48;57;49;55;54;53;49;51;56;48;51;49;52;50;50;57;52;50;49;49;57;48;48;48;53;54;48;55;57;52;50;54;54;53;56;55;57;52;52;50;50;50;50;51;57;55;52;48;57;52;50;48;48;49;57;53;50;49;48;48;48;50;55;49;54;69;49]), [1;0;1;0;0;0;0;0;0;0;0;0;0]);
  ((2, 1, 0), ([24;12;999999999;0;927003727;999999997;981152308;702637774;0;999999998;999999999], [(-101);0;0;0;708069316;0;0;0;0;0;0], [(-110);0;609078824;601945061;0;0;0;0;0;0;0], []), [0;(-74);12;0;0;291930684;708069315;906340732;532174946;325450642;694723844;0]);
  ((4, 0, 0), ([73;18;999999999;734245528;629640741;0;999999999;0;0;0;0], [29;22;0;500000001;1000000005;3;999999999;500000001;52654377;45747527;460581346], [9;9;499999998;0;0;0;0;0;0;0;0], []), [(-1)]);
  ((10, 1, 0), ([(-119);50;0;0;0;0;0;0;0;0;0], [], [], []), [0;1;1;6;0;0;0;0;0;0;0]);
  ((5, 0, 0), ([0;0;0;0;0;0;0;0;0;0;0], [72;0;0;111370715;0;0;0;0;0;0;0], [], []), [0;(-1)]);
  ((9, 0, 0), ([81;0;999999998;10000000;70000;100000000;10000;338033190;2;215536155;999999999], [], [], []), [1;3]);
  ((4, 0, 0), ([(-83);4;30000;0;0;0;0;0;0;0;0], [1;38;1;0;0;0;0;0;0;0;0], [54;24;0;823512254;3;500000002;58798395;999999999;956256641;350898277;382825259], []), [0;0;38;0;0;0;0;0;0;0;0;0]);
  ((0, 1, 0), ([0;4;0;0;0;0;0;0;0;0;0], [9;4;79999999;0;0;0;0;0;0;0;0], [18;2;386077121;100000000;500524911;0;0;0;0;0;0], []), [0;9;4;79999999;0;0;0;0;0;0;0;0]);
  ((0, 1, 0), ([56;46;0;0;0;0;359869764;1000000005;985989928;1000;723502805], [0;0;0;0;0;0;0;0;0;0;0], [34;14;292179205;0;100000;146844986;119161659;0;999999996;529517629;1000000], []), [0;56;46;0;0;0;0;359869764;1000000005;985989928;1000;723502805]);
  ((2, 1, 0), ([18;22;0;0;0;0;0;0;0;0;0], [(-119);0;70;999999999;0;1000000;198470064;940934785;999999999;999999999;9], [23;8;0;751531777;1000;883061312;0;0;0;0;0], []), [0;1;0;0;0;0;0;0;0;0;0;0]);
  ((2, 0, 0), ([36;0;0;0;0;0;0;0;0;0;0], [(-117);0;880577439;20000;1;0;999999998;0;10;1000000;10], [27;4;0;996898037;2;884851733;0;0;0;0;0], []), [0;1;0;0;0;0;0;0;0;0;0;0]);
  ((12, 0, 0), ([(-123);12;910021131;69999999;700000000;0;0;0;0;0;0], [], [85;30;999999999;638859904;245851207;0;0;0;0;0;0], [43;56;48;56;51;51;52;57;48;48;52;51;57;57;48;56;50;57;53;51;46;69;43;53]), [0;24;0;295300000;900439908;808334;0;0;0;0;0;0]);
  ((2, 1, 0), ([0;80;0;769496632;999999996;999999999;499999999;860048144;0;10000000;163506779], [8;0;1000000;999999999;0;999999997;0;844327366;999999999;1000000;10], [9;18;0;0;0;0;0;0;0;0;0], []), [0;9;36;144499999;860048;0;779010000;163506;0;0;0;0]);
  ((2, 1, 0), ([(-101);2;5999;819211270;537991884;999999996;814388106;123318962;647003649;499999998;100], [0;2;0;0;0;0;0;0;0;0;0], [20;24;10000;0;698148271;0;0;0;0;0;0], []), [0;1;0;0;0;0;0;0;0;0;0;0]);
  ((12, 0, 1), ([9;9;2;632692448;999999996;999999998;3;10000;178626801;701640460;100000], [], [36;71;79999;0;0;0;0;0;0;0;0], []), [1;0;1;0;0;0;0;0;0;0;0;0;0]);
  ((3, 0, 136), ([9;18;0;0;275355559;0;0;0;0;0;0], [45;3;0;111105676;389418632;100000000;850105799;500000001;0;0;0], [28;26;0;0;0;469115088;888237439;557069463;140097863;0;0], []), [(-1)]);
  ((2, 0, 0), ([9;14;0;0;0;0;0;0;0;0;0], [36;5;406095657;900382890;0;500000000;0;0;0;0;0], [(-111);56;999999999;999999997;0;891253955;4000000;864595464;200000000;2000000;593070803], []), [0;1;0;0;0;0;0;0;0;0;0;0]);
  ((3, 1, 18446744073709551615), ([(-103);9;30000000;999999998;0;0;0;0;0;0;0], [18;52;1;0;0;0;0;0;0;0;0], [0;47;0;0;0;0;3;0;0;0;0], []), [0;(-65);18;0;0;0;0;0;0;0;30000000;999999998]);
  ((3, 0, 18446744073709551615), ([18;15;500000001;865508567;760581699;500000000;2;0;0;0;910074888], [5;0;0;0;0;0;0;0;0;0;0], [18;0;3;999999999;0;0;0;0;0;0;0], []), [1;1;1;0;0;0;0;0;0;0;0;0;0]);
  ((12, 1, 0), ([33;12;405140619;0;999999998;508237096;999999999;527590540;0;0;0], [], [31;0;507637285;1000000;999999999;0;0;0;0;0;0], [45;53;53;51;54;52;53;50;54;54;56;48;50;48;57;52;52;56;56;51;50;55;55;54;48;50;57;54;48;57;54;56;49;49;57;56;57;55;56;52;49;50;57;49;51;48;48;49;54;48;48;57;51;48;50;49;48;48;54;57;57;51;48;51;48;48;49;46;48;51;52;54;52;48;57;55;57;56;48;48;48;49;57;52;57;56;57;51;51;57;51;50;50;48;56;52;48;57;56;53;69;45;50]), [1;0;31;0;507637285;1000000;999999999;0;0;0;0;0;0]);
  ((2, 1, 0), ([(-119);0;0;0;0;0;0;0;0;0;0], [2;45;0;0;0;0;0;0;0;0;0], [(-81);9;0;0;0;0;0;0;0;0;0], []), [0;1;0;0;0;0;0;0;0;0;0;0]);
  ((3, 1, 18446744073709551615), ([36;9;0;0;0;0;0;0;0;0;0], [(-128);0;0;0;0;0;0;0;0;0;0], [(-111);0;0;0;0;0;0;0;0;0;0], []), [1;1;1;0;0;0;0;0;0;0;0;0;0]);
  ((3, 1, 20), ([(-128);22;714838493;499999999;402739507;0;0;0;0;0;0], [9;5;999999999;500000002;0;0;0;0;0;0;0], [0;27;0;0;0;0;0;0;0;0;0], []), [0;(-128);36;37879366;167125940;805479010;0;0;0;0;0;0]);
  ((4, 1, 0), ([27;18;0;0;0;0;0;0;0;0;0], [15;16;682627602;702662676;0;0;0;0;0;0;0], [(-101);37;0;0;0;0;0;0;0;0;0], []), [0;1;0;0;0;0;0;0;0;0;0;0]);
  ((3, 0, 0), ([(-92);25;0;0;0;0;0;0;0;0;0], [76;0;464452263;2;102820779;158113597;999999998;3000000;966913599;367986766;100000000], [(-113);(-108);999999999;159341658;0;0;0;0;0;0;0], []), [0;1;0;0;0;0;0;0;0;0;0;0]);
  ((3, 1, 18446744073709551615), ([81;0;999999001;6;0;0;0;0;0;0;0], [9;27;1000;0;0;0;0;0;0;0;0], [(-119);15;999999998;24218638;999999999;0;0;0;0;0;0], []), [0;33;27;0;0;0;0;0;1000000;6999999;0;0]);
  ((4, 1, 0), ([81;0;0;80000000;2;499999998;499999998;6000000;999999998;10000;531840097], [95;6;756876358;473797229;999999999;413865311;0;999999999;6999;999999999;0], [9;1;0;269604050;500000002;439843565;886215174;86777994;2999999;500000000;500000000], []), [(-1)]);
  ((4, 0, 0), ([9;9;0;0;0;0;0;0;0;0;0], [(-128);4;0;0;0;0;0;0;0;0;0], [(-47);0;0;0;999999999;99999;0;2;5;27898787;998656649], []), [1;1;1;0;0;0;0;0;0;0;0;0;0]);
  ((1, 0, 0), ([(-92);13;799999999;0;0;616054504;3;599;0;0;0], [(-96);0;0;0;0;0;0;0;0;0;0], [0;10;0;0;0;0;0;0;0;0;0], []), [0;(-92);13;799999999;0;0;616054504;3;599;0;0;0]);
  ((3, 0, 20), ([13;0;999999999;224783609;0;0;0;0;0;0;0], [(-97);7;0;550213748;59622956;530557798;425621265;999999998;0;0;0], [6;3;0;0;0;0;0;0;0;0;0], []), [0;(-128);27;528130589;0;0;0;0;0;0;0;0]);
  ((9, 1, 0), ([3;2;888038834;303600451;0;0;0;0;0;0;0], [], [], []), [0;303600452]);
  ((3, 1, 4), ([(-101);1;499999999;900;1;0;500000001;701453612;999999996;859630199;0], [(-6);15;0;999999999;999999997;999999999;38083029;0;0;0;0], [(-101);14;999999999;49999999;0;0;0;0;0;0;0], []), [(-1)]);
  ((4, 0, 0), ([15;9;452551299;820050281;763172504;781984358;567158922;70453806;20313608;0;0], [(-110);0;894525513;0;8000000;40627216;0;0;0;0;0], [(-119);2;100000000;999999996;0;0;0;0;0;0;0], []), [0;9;9;452551299;151126099;0;0;0;0;0;0;0]);
  ((12, 1, 1), ([(-101);14;1;877421464;999999999;500000002;10000;0;0;0;0], [], [90;9;802708329;999999996;0;983608028;0;500000002;0;123956699;199999], [52;51;54;48;48;48;52;56;57;50;48;50;48;53;49;49;51;57;49;51;50;57;52;48;49;56;56;54;52;56;56;54;55;48;49;55;57;51;53;48;50;57;55;53;48;55;54;56;51;51;52;55;51;48;52;55;50;48;48;53;52;55;57;48;54;51;54;46;51;57;50;56;52;55;56;51;51;56;55;49;51;50;48;54;52;52;57;57;52;57;50;52;53;48;48;48;48;69;48;48]), [1;0;1;0;0;0;0;0;0;0;0;0;0]);
  ((3, 0, 100), ([(-119);9;85585955;135568055;653542894;0;0;0;0;0;0], [25;17;521396489;653542891;0;0;0;0;0;0;0], [0;11;110572351;1000;0;0;0;0;0;0;0], []), [(-1)]);
  ((0, 0, 0), ([(-74);27;0;0;999999996;0;999999999;10000000;0;96140873;100], [27;2;0;0;999999999;0;0;0;0;0;0], [32;24;0;0;0;999999999;365067687;86517109;961613540;0;0], []), [(-1)]);
  ((14, 0, 3320166630745035499), ([24;9;0;0;0;0;0;0;0;0;0], [], [], []), [0;27;0;745035499;320166630;3;0;0;0;0;0;0]);
  ((13, 0, (-9223372036854775808)), ([36;(-100);20976089;500000000;100000;0;10;999999999;642747240;0;0], [], [], []), [0;(-109);0;854775808;223372036;9;0;0;0;0;0;0]);
  ((14, 0, 1000000000), ([(-119);39;0;0;0;0;0;0;0;0;0], [], [], []), [0;18;0;0;1;0;0;0;0;0;0;0]);
  ((4, 1, 0), ([84;0;1;0;0;0;0;0;0;0;0], [9;0;0;500000000;0;0;0;0;0;0;0], [(-94);0;0;0;999999999;277388742;0;0;0;0;0], []), [1;1;1;0;0;0;0;0;0;0;0;0;0]);
  ((4, 0, 0), ([(-110);(-47);999999997;499999999;0;0;0;0;0;0;0], [(-119);1;1;0;0;0;0;0;0;0;0], [(-69);16;3;0;609208254;999999999;0;0;0;0;0], []), [(-1)]);
  ((2, 0, 0), ([19;8;299999;326647074;1000;100000000;0;0;0;0;0], [9;16;0;993205870;0;0;0;0;0;0;0], [0;31;500000002;999999999;0;0;0;0;0;0;0], []), [0;36;24;0;767794130;315422340;530297791;993;99320587;0;0;0]);
  ((12, 0, 1), ([(-128);0;0;0;0;0;0;0;0;0;0], [], [18;20;0;0;0;0;0;0;0;0;0], [43;51;57;54;48;48;48;55;48;55;48;57;50;50;48;48;48;48;57;48;57;50;56;48;56;56;51;49]), [0;27;0;92808831;92200009;396000707;0;0;0;0;0;0]);
  ((7, 1, (-35)), ([(-124);0;442036783;0;0;0;0;0;0;0;0], [], [0;0;0;0;0;0;0;0;0;0;0], []), [0;1;0;0;0;0;0;0;0;0;0;0]);
  ((5, 0, 0), ([26;45;0;0;1000000;1;0;499999999;0;0;0], [26;45;0;0;1000000;1;0;499999999;0;0;0], [], []), [0;0]);
  ((6, 0, 0), ([27;0;863854144;0;0;0;0;0;0;0;0], [], [], []), [0;27;0;863854144;0;0;0;0;0;0;0;0]);
  ((2, 0, 0), ([18;1;0;0;0;0;0;0;0;0;0], [8;3;999999999;779246896;0;0;0;0;0;0;0], [96;66;0;0;0;0;0;0;0;0;0], []), [0;1;0;0;0;0;0;0;0;0;0;0]);
  ((4, 1, 0), ([76;11;999999999;750000001;334900399;42450199;0;0;0;0;0], [30;32;499999999;500000002;84900398;0;0;0;0;0;0], [(-128);0;0;0;0;0;0;0;0;0;0], []), [(-1)]);
  ((3, 1, 40), ([9;46;898880111;723677420;205106784;998999998;0;1000000;0;0;0], [36;10;999999999;999999999;0;0;0;0;0;0;0], [27;0;0;0;0;0;0;0;0;0;0], []), [0;0;36;205106785;999999998;0;1000000;0;0;0;0;0]);
  ((1, 0, 0), ([9;0;0;0;0;0;0;0;0;0;0], [0;27;0;0;0;0;0;0;0;0;0], [8;20;55778133;0;0;0;0;0;0;0;0], []), [0;0;27;0;0;0;0;0;0;0;0;0]);
  ((12, 0, 1), ([33;18;327106734;0;0;0;500000000;999999998;0;0;0], [], [(-77);0;448448539;0;0;703432837;500000001;500000002;0;0;0], [45;48;51;49;54;53;50;49;57;48;57;53;52;56;52;51;48;53;48;57;48;54;55;56;57;48;57;57;53;48;49;50;50;54;54;54;53;56;51;48;57;56]), [0;(-87);0;666583098;909950122;305090678;219095484;3165;0;0;0;0]);
  ((0, 1, 0), ([(-63);0;0;0;0;0;0;0;0;0;0], [9;27;895380750;999999997;0;3;0;0;0;0;0], [9;0;999999997;0;0;0;0;0;0;0;0], []), [0;9;27;895380750;999999997;0;3;0;0;0;0;0]);
  ((0, 0, 0), ([45;12;499999999;0;499999999;896943348;59999999;400;0;0;0], [0;21;499999999;499999998;999999999;0;0;0;0;0;0], [69;0;1000000;0;0;0;0;0;0;0;0], []), [0;36;21;499999999;999999997;999999999;499999999;896943348;59999999;400;0;0]);
  ((6, 1, 108), ([2;10;999999996;100000;999999997;0;0;0;0;0;0], [], [], []), [(-1)]);
  ((7, 0, 23), ([27;4;507306938;0;0;0;0;0;0;0;0], [], [(-92);0;0;0;0;0;0;0;0;0;0], []), [0;27;23;0;0;507306938;0;0;0;0;0;0]);
  ((4, 1, 0), ([(-110);21;1;0;0;0;0;0;0;0;0], [54;25;166964958;0;0;0;0;0;0;0;0], [0;0;0;0;0;0;0;0;0;0;0], []), [0;(-110);25;1;0;0;0;0;0;0;0;0]);
  ((3, 1, 4), ([(-83);16;592361972;118226803;2194739;747192839;84269131;999997008;999;0;0], [72;30;84271156;8;1000;0;0;0;0;0;0], [8;9;599915424;1000;499999998;0;649676300;5000;499999998;2;266499902], []), [(-1)]);
  ((2, 1, 0), ([18;6;0;752291210;999999998;0;0;0;0;0;0], [18;18;212827181;0;999999998;0;999999999;900000;629381911;635234843;874860333], [69;0;0;0;0;0;0;0;0;0;0], []), [0;36;24;0;515379010;734453655;708244760;752291212;999999996;0;0;0]);
  ((3, 1, 0), ([63;14;405559810;1000000;0;0;0;0;0;0;0], [55;0;1;0;0;0;0;0;0;0;0], [18;18;0;0;0;0;0;0;0;0;0], []), [0;0;18;405559810;1000000;0;0;0;0;0;0;0]);
  ((4, 0, 0), ([(-29);0;997982150;965318826;804628406;177789186;87041023;362608955;77302229;0;0], [4;69;997982151;500000000;77302229;0;0;0;0;0;0], [36;0;0;0;0;0;0;0;0;0;0], []), [(-1)]);
  ((4, 1, 0), ([15;4;0;954314815;500000000;0;0;0;0;0;0], [36;0;490776020;0;999999999;100000;0;0;722849979;799623925;21391867], [36;15;0;0;0;0;0;999999999;0;0;0], []), [0;15;4;0;954314815;500000000;0;0;0;0;0;0]);
  ((4, 1, 0), ([18;0;533459812;966540187;500000000;0;0;0;0;0;0], [18;19;466540189;500000001;0;0;0;0;0;0;0], [27;14;898615402;10000;0;0;0;0;0;0;0], []), [0;0;19;39452102;276488049;0;0;0;0;0;0;0]);
  ((2, 0, 0), ([(-93);(-90);100000000;999999997;999999999;991850571;0;0;0;0;0], [18;0;97927272;999999999;0;0;0;0;0;0;0], [(-74);5;931469496;499999999;3;100000000;603558734;324364938;0;665479641;793666977], []), [(-1)]);
  ((3, 0, 20), ([27;9;0;0;0;0;0;0;0;0;0], [(-16);0;999999997;142769381;0;100000000;0;7000;100000;999999996;970485476], [(-116);0;865597365;426918950;0;0;0;0;0;0;0], []), [(-1)]);
  ((3, 0, 9223372036854775808), ([27;0;0;999999997;999999998;0;0;0;0;0;0], [13;0;500000001;100;3;0;3;0;303410612;2;1000000], [(-125);61;0;0;0;0;0;0;0;0;0], []), [0;16;0;746169649;9950248;0;0;0;0;0;0;0]);
  ((4, 0, 0), ([9;18;331527295;573722569;398836901;439067063;204312883;0;0;0;0], [93;5;398677431;0;0;0;0;0;0;0;0], [36;14;586202257;999999996;60000;490194305;0;0;0;0;0], []), [(-1)]);
  ((6, 0, 4), ([18;4;999999999;(-2147483648);839731328;0;0;234511868;999999999;623050644;500000000], [], [], []), [0;18;4;999999999;(-2147483648);839731328;0;0;234511868;999999999;623050644;500000000]);
  ((12, 0, 0), ([54;0;75519246;999999999;526015331;500000001;999999999;999999996;0;892907471;0], [], [85;9;898408853;999999999;0;915850461;932715809;999999999;999999998;580147430;89999999], [45;48;57;51;52;52;53;57;48;48;51;55;49;48;57;55;54;48;48;52;56;53;49;49;48;51;52;48;48;57;48;52;50;51;57;46;48;48;49;54;53;49;55;57;55;49;53;57;54;50;48;53;49;53;69;45;53;56]), [1;0;85;9;898408853;999999999;0;915850461;932715809;999999999;999999998;580147430;89999999]);
  ((0, 0, 0), ([9;8;599999999;1;0;0;0;0;0;0;0], [9;0;77213529;0;0;0;0;0;0;0;0], [(-101);9;0;0;100;7;0;0;0;0;0], []), [0;9;8;599999999;77213530;0;0;0;0;0;0;0]);
  ((9, 0, 0), ([116;66;0;0;0;0;0;0;0;0;0], [], [], []), [(-1)]);
  ((0, 0, 0), ([24;9;100000000;199999;100;288948477;999999997;0;511116108;500000000;1000000005], [28;27;3;3;100;0;181581805;0;0;0;0], [72;22;0;0;0;0;0;0;0;499999998;0], []), [0;27;27;3;3;100000100;199999;181581905;288948477;0;0;0]);
  ((5, 0, 0), ([36;7;10000000;999999997;499999999;239142710;429402438;0;0;0;0], [(-119);2;323363148;813679067;0;0;0;0;0;0;0], [], []), [0;1]);
  ((11, 1, 10), ([36;5;0;0;0;0;0;0;0;0;0], [], [], []), [0;48;46;48;48;48;48;48;48;48;48;48;48]);
  ((3, 0, 0), ([71;9;0;0;399;999999999;169269238;455889405;0;499999998;0], [45;18;3;161249351;503740448;509481225;63264420;999999999;100000;0;0], [29;2;999999999;499999998;999999999;954874256;92980342;0;0;0;0], []), [0;22;27;293529398;370205650;933617377;241838450;949980500;4999;0;0;0]);
  ((6, 1, 0), ([0;29;279335247;999999996;0;0;0;0;0;0;0], [], [], []), [0;0;0;0;0;0;0;0;0;0;0;0]);
  ((4, 1, 0), ([(-92);0;512630781;768946171;743684606;962781290;423656900;0;0;0;0], [(-104);3;743684609;0;0;0;0;0;0;0;0], [0;76;2;3;2;64365480;0;0;2000000;768917151;999999997], []), [0;(-128);3;492243047;0;0;0;0;0;0;0;0]);
  ((4, 1, 0), ([113;32;0;0;0;0;0;0;0;0;0], [13;35;500000001;59;0;999999999;3;0;100000000;0;0], [(-86);25;0;0;0;49999;782900969;0;999999999;373252221;0], []), [(-1)]);
  ((1, 1, 0), ([9;0;0;0;0;0;0;0;0;0;0], [(-83);4;0;48684749;70;999999999;999999998;0;0;0;704260509], [34;4;500000000;20;100000000;600000;499999999;0;0;0;0], []), [0;45;4;0;48684749;70;999999999;999999998;0;0;0;704260509]);
  ((10, 0, 0), ([61;18;817690651;299;0;0;960776958;0;999999999;808971212;1], [], [], []), [0;0;7;2;817690651;299;0;0;960776958;0;999999999;808971212;1]);
  ((3, 0, 0), ([19;0;123473585;900422649;7354732;0;0;0;0;0;0], [0;54;705287214;908863747;0;0;0;0;0;0;0], [27;0;10000000;500000001;699999999;0;0;0;0;0;0], []), [0;61;18;538528497;254137304;415933678;20718489;864573585;66200659;285025190;256426762;8092228]);
  ((0, 0, 0), ([18;63;1000000;1;0;800000000;0;0;0;0;0], [(-12);17;3;999999999;6999999;0;0;0;0;0;0], [35;45;0;0;0;974618966;491065690;441105152;1;9;2], []), [(-1)]);
  ((2, 0, 0), ([50;9;0;0;0;0;0;0;0;0;0], [(-85);82;999999999;999999999;268936576;3;999999996;3;10;0;0], [85;8;0;0;0;0;0;0;0;0;0], []), [0;1;0;0;0;0;0;0;0;0;0;0]);
  ((5, 1, 0), ([9;38;0;0;0;0;99528174;813320356;0;999999999;0], [9;38;0;0;0;0;99528174;813320356;0;999999999;0], [], []), [0;0]);
  ((11, 1, (-5)), ([9;13;999999999;495281788;0;0;0;0;0;0;0], [], [], []), [0;48;46;52;57;53;50;56;49;55;56;56;57;57;57;57]);
  ((4, 1, 0), ([(-119);22;852365300;245;50;0;0;0;0;0;0], [54;10;458523653;500000002;0;0;0;0;0;0;0], [36;9;0;0;999999996;0;251479625;1;3;100;499999998], []), [0;(-119);22;852365300;245;50;0;0;0;0;0;0]);
  ((5, 0, 0), ([45;25;0;3;0;945861418;442470164;999999999;0;531509315;0], [(-83);10;742672506;958425571;90000;100000;0;0;0;0;0], [], []), [0;1]);
  ((5, 1, 0), ([(-48);0;477026984;478684111;0;53431681;1000000;499999999;927762853;447260130;197498469], [(-48);0;477026984;478684111;0;53431681;1000000;499999999;927762853;447260130;197498469], [], []), [0;0]);
  ((14, 1, 1000000000), ([27;9;0;500000002;1000000;0;0;0;0;0;0], [], [], []), [0;18;0;0;1;0;0;0;0;0;0;0]);
  ((12, 0, 1), ([24;0;500000000;320654482;999999999;0;560238759;68535049;999999999;0;499999998], [], [(-92);0;0;0;8300404;174655984;0;0;0;0;0], [50;57;55;54;48;48;53;48;50;48;57;51;54;57;54;48;53;48;54;57;57;57;53;52;55;55;48;49;56;52;57;48;49;56;57;54;48;52;54;48;54;57;49;57;48;53;49;50;57;48;56;55;55;52;57;53;49;49;55;57;52;54;56;57;101;45;48;48;57]), [0;55;9;511794689;129087749;460691905;849018960;999547701;936960506;976005020;2;0]);
  ((3, 1, 4), ([13;0;151333811;428735940;421790107;286073894;423866747;23;0;0;0], [(-101);9;10;142851898;90;0;0;0;0;0;0], [58;32;300000;20000;100000000;786385284;8000000;559193013;999999997;10;788004585], []), [0;(-120);18;591044117;447983923;4756183;0;0;0;0;0;0]);
  ((2, 0, 0), ([(-56);3;0;0;0;0;0;0;0;0;0], [5;3;999999999;10;0;0;0;0;0;0;0], [112;0;10000000;0;0;0;0;0;0;0;0], []), [0;1;0;0;0;0;0;0;0;0;0;0]);
  ((4, 0, 0), ([(-47);0;937537351;15615661;0;0;0;0;0;0;0], [2;(-15);999999996;0;0;0;0;0;0;0;0], [108;19;656618026;707603123;834020689;0;0;0;0;0;0], []), [(-1)]);
  ((4, 0, 0), ([48;8;0;0;0;0;0;0;0;0;0], [(-24);0;0;292140464;8144983;639170605;0;0;0;999999999;500000001], [(-110);0;0;0;0;0;0;0;0;0;0], []), [(-1)]);
  ((12, 1, 0), ([36;0;999999999;1000;0;5000;0;0;0;0;0], [], [(-92);9;0;0;0;0;114783846;0;0;0;0], [52;57;54;57;53;54;48;51;49;54;55;53;55;55;52;56;50;51;49;50;53;51;49;48;49;55;48;53;57;55;55;57;57;49;54;54;56;48;54;57;46;57;54;57;48;51;57;54;49;48;57;56;48;55;50;50;51;55;57;49;56;56;51;57;48;56;55;53;49;52;57;51;51;57;50;53;101;45;48;55]), [1;0;(-92);9;0;0;0;0;114783846;0;0;0;0]);
  ((3, 1, 71), ([27;9;276769435;930807641;999999995;0;0;0;0;0;0], [18;3;930807641;999999999;0;0;0;0;0;0;0], [36;29;114993158;10;999999999;2;500000001;7999;100000000;836889659;0], []), [0;9;36;930807640;999999999;999999998;999999999;999999995;0;0;0;0]);
  ((4, 0, 0), ([(-128);79;500000002;0;409078187;999999997;593012523;0;999999998;500000000;619878790], [33;18;0;3;999999996;299;216833338;0;0;0;0], [(-110);21;0;999999999;0;0;0;0;0;0;0], []), [0;(-128);79;500000002;0;409078187;999999997;593012523;0;999999998;500000000;619878790]);
  ((12, 0, 0), ([27;0;1;0;500000000;0;0;0;0;0;0], [], [9;72;0;0;891045466;0;999999999;999999998;0;79999;999999999], [45;52;53;48;48;53;54;51;56;51;51;56;53;56;54;53;52;49;49;54;57;48;48;57;54;57;48;48;49;53;52;54;53;48;57;57;50;57;55;57;51;57;49;53;49;54;56;57;48;52;53;52;48;54;49;57;51;52;48;49;50;57;55;56;48;56]), [0;(-63);0;401297808;45406193;939151689;465099297;9690015;586541169;5638338;45;999999999]);
  ((3, 1, 100), ([(-82);18;0;304172800;0;0;0;0;0;0;0], [(-86);0;1;0;0;0;0;0;0;0;0], [(-19);81;499999;0;3;499999998;0;499999999;961323714;999999999;275983642], []), [0;0;36;0;0;0;304172800;0;0;0;0;0]);
  ((5, 1, 0), ([(-86);36;37626269;1;662267926;1000000005;3999999;0;2;100000;90], [7;0;636918280;0;0;0;0;0;0;0;0], [], []), [0;(-1)]);
  ((3, 1, 20), ([0;18;999999999;2;0;0;0;0;0;0;0], [16;3;1;295428790;2999999;0;0;0;0;0;0], [36;11;5000000;999999997;0;499999998;999999999;79;849461811;193524366;0], []), [0;0;36;234523;1000;0;0;0;0;0;0;0]);
  ((10, 0, 0), ([(-101);17;999999997;58446653;900;1;0;0;0;0;0], [], [], []), [0;1;3;2;999999997;58446653;900;1;0]);
  ((4, 0, 0), ([(-119);18;328341663;562328167;21587503;562150384;999999992;0;0;0;0], [18;0;999999996;0;0;0;0;0;0;0;0], [27;0;999999999;999999999;12236685;0;0;0;0;0;0], []), [0;(-119);18;328341663;562328167;21587503;0;0;0;0;0;0]);
  ((3, 0, 1), ([(-126);21;50000;0;0;0;0;0;0;0;0], [21;0;0;0;0;0;0;0;0;0;0], [17;21;240872689;999999998;999999999;10000;499999998;999999999;0;0;3], []), [1;1;1;0;0;0;0;0;0;0;0;0;0]);
  ((0, 0, 0), ([81;0;0;0;0;10000000;500000000;0;499999998;500000002;242613995], [(-74);16;0;0;0;8920380;999999999;100;0;0;0], [(-110);22;408862041;2;3;0;0;0;0;0;0], []), [(-1)]);
  ((11, 1, 244), ([(-92);42;0;500000000;999999999;900000;999999997;31760966;114375883;234695328;999999999], [], [], []), [0;45;57;57;57;57;57;57;57;57;57;50;51;52;54;57;53;51;50;56;49;49;52;51;55;53;56;56;51;48;51;49;55;54;48;57;54;54;46;57;57;57;57;57;57;57;57;55;48;48;48;57;48;48;48;48;48;57;57;57;57;57;57;57;57;57;53;48;48;48;48;48;48;48;48;48;48;48;48;48;48;48;48;48;48;48;48;48;48;48;48;48;48;48;48;48;48;48;48;48;48;48;48;48;48;48;48;48;48;48;48;48;48;48;48;48;48;48;48;48;48;48;48;48;48;48;48;48;48;48;48;48;48;48;48;48;48;48;48;48;48;48;48;48;48;48;48;48;48;48;48;48;48;48;48;48;48;48;48;48;48;48;48;48;48;48;48;48;48;48;48;48;48;48;48;48;48;48;48;48;48;48;48;48;48;48;48;48;48;48;48;48;48;48;48;48;48;48;48;48;48;48;48;48;48;48;48;48;48;48;48;48;48;48;48;48;48;48;48;48;48;48;48;48;48;48;48;48;48;48;48;48;48;48;48;48;48;48;48;48;48;48;48;48;48;48;48;48;48;48;48;48;48;48;48;48;48;48;48;48;48;48;48;48;48;48;48;48;48;48;48;48;48;48;48;48;48;48;48;48;48;48;48]);
  ((9, 0, 0), ([(-90);0;999999996;384389639;236621893;0;999999996;517444500;968064736;0;999999999], [], [], []), [1;3]);
  ((1, 0, 0), ([45;21;499999999;229411113;999999999;783948455;654500062;571931897;500000001;999999997;0], [(-122);10;463533394;2;293585896;70538540;0;854917334;999999997;635338554;30000], [27;17;999999999;370364664;30;174013056;1000;0;0;0;0], []), [0;45;21;499999999;692944507;1;77534352;654500063;571931897;500000001;999999997;0]);
  ((5, 1, 0), ([18;0;969589030;457390531;0;0;0;0;0;0;0], [18;0;969589030;457390531;0;0;0;0;0;0;0], [], []), [0;0]);
  ((4, 1, 0), ([18;0;0;0;0;0;0;0;0;0;0], [(-101);8;999999999;3;355004219;60644807;0;597310682;2;0;10000], [57;0;999999999;999999997;134849682;315581739;999999999;500000002;0;0;0], []), [0;1;0;0;0;0;0;0;0;0;0;0]);
  ((4, 1, 0), ([9;8;457122476;999999998;0;0;0;0;0;0;0], [(-128);27;1;0;0;0;0;0;0;0;0], [(-83);11;56347766;1000000;999999996;585606044;128946534;999999999;772893658;0;0], []), [0;0;27;0;0;0;0;0;0;0;0;0]);
  ((10, 1, 0), ([(-71);0;1;0;999999996;2;499999999;499999998;12181654;0;999999999], [], [], []), [0;1;7;0;1;0;999999996;2;499999999;499999998;12181654]);
  ((6, 1, 0), ([(-99);0;0;999999999;79999999;100;100;999999997;235752113;9000;583463998], [], [], []), [0;(-99);0;0;999999999;79999999;100;100;999999997;235752113;9000;583463998]);
  ((4, 0, 0), ([20;15;1;191288548;722710343;91446974;0;0;0;0;0], [(-110);14;0;95644274;0;0;0;0;0;0;0], [70;9;0;340638852;0;0;0;0;0;0;0], []), [0;0;15;1;0;0;0;0;0;0;0;0]);
  ((3, 1, 20), ([18;27;0;0;0;0;0;0;0;0;0], [55;9;999999996;0;3;0;0;0;0;0;0], [44;18;10000000;119234649;0;150600384;67322982;80000;60000;0;0], []), [0;1;0;0;0;0;0;0;0;0;0;0]);
  ((5, 0, 0), ([9;9;0;0;0;0;0;0;0;0;0], [(-119);9;0;0;0;0;0;0;0;0;0], [], []), [0;1]);
  ((10, 1, 0), ([0;6;0;0;0;0;0;0;0;0;0], [], [], []), [0;0;0;1;0]);
  ((0, 0, 0), ([(-110);9;772585910;999999998;0;0;0;0;0;0;0], [9;0;999999999;500000000;236703819;10000000;999999999;146557071;944098815;698382061;999999997], [5;0;380663426;0;0;0;0;0;0;0;0], []), [0;0;9;227414090;0;0;0;0;0;0;0;0]);
  ((2, 0, 0), ([(-97);34;0;0;612151740;0;1;1;695004408;399999;0], [(-119);23;2;100000;727825624;880783747;348550499;87518844;161939364;0;0], [72;1;499999999;2;999999999;3;2;562450478;0;882729728;0], []), [0;45;36;174000001;148246977;735409504;657107743;50209371;816103841;687373209;230455969;352313]);
  ((3, 0, 4), ([(-127);4;71747838;702573082;999999996;126693589;0;0;0;0;0], [27;16;1;0;0;0;0;0;0;0;0], [0;0;277167798;500000000;402177226;816893282;999999999;305116696;71028412;500000002;999999999], []), [0;(-101);27;0;0;0;0;71747838;702573082;0;0;0]);
  ((1, 1, 0), ([(-119);0;0;0;0;0;0;0;0;0;0], [103;0;0;0;0;0;0;0;0;0;0], [65;9;500000001;999999997;0;89999;999999998;2147483647;3;535401221;2], []), [0;103;0;0;0;0;0;0;0;0;0;0]);
  ((2, 1, 0), ([18;63;0;0;0;0;951136069;999999999;0;273535198;818677299], [(-101);9;3;0;671319777;999999997;999999999;726628386;463163631;694451688;1], [(-110);11;0;0;0;0;0;0;0;0;0], []), [0;(-83);36;853408207;999999999;737736615;934394063;78487743;123010846;162666318;367097562;818677297]);
  ((2, 1, 0), ([36;0;999999999;999999998;799;10;999999999;0;0;500000000;975840027], [0;9;855353660;0;0;0;0;0;0;0;0], [(-76);38;0;0;0;0;0;0;0;0;0], []), [0;36;9;144646340;144646339;282927999;553537284;8;0;0;0;0]);
  ((1, 1, 0), ([0;0;0;0;0;0;0;0;0;0;0], [11;25;900029962;746846343;500000001;999999998;0;96635353;499999999;500000001;528734174], [33;16;0;0;0;0;0;0;0;0;0], []), [0;(-117);25;900029962;746846343;500000001;999999998;0;96635353;499999999;500000001;528734174]);
  ((2, 1, 0), ([(-81);9;100000;99999999;1000000005;499999998;8;0;448709111;999999997;933568844], [27;52;1000000;999999998;10;999999998;0;778818730;10000;999999996;20835929], [27;0;999999999;500000001;0;0;0;1;597096214;49999999;0], []), [0;(-47);0;574595991;350032506;701697120;555057363;947613066;617678464;205168043;627158228;9349271]);
  ((3, 1, 20), ([39;0;0;0;0;0;999999999;0;0;0;0], [79;0;0;0;0;0;0;0;0;0;0], [9;3;0;0;0;0;0;0;0;0;0], []), [1;1;1;0;0;0;0;0;0;0;0;0;0]);
  ((3, 1, 40), ([63;9;0;0;0;999999999;100000;832547239;146600860;296557440;0], [(-110);0;1;100000;0;0;0;0;0;0;0], [0;15;1;499999999;3;999999997;0;500000002;0;143817472;999999996], []), [0;(-79);27;269787525;247419542;45773021;697875258;474195422;457730211;978952581;574401465;2965]);
  ((12, 1, 1), ([(-56);0;90169350;0;2;499999999;262210622;0;999999998;731233975;420281973], [], [35;0;999999999;80950421;3;911705252;0;0;0;0;0], [45;52;54;48;57;54;56;51;48;49]), [0;(-119);0;460968301;0;0;0;0;0;0;0;0]);
  ((3, 1, 9223372036854775808), ([78;0;0;299999999;507865834;0;0;0;0;0;0], [(-72);0;796863592;444009440;465729036;499999999;0;0;423519752;276295843;1], [75;0;0;0;0;0;0;0;0;0;348166278], []), [0;0;0;0;0;0;0;0;0;0;0;0]);
  ((3, 0, 18446744073709551615), ([95;5;1000;10;0;896502903;7000000;303366476;808260179;0;0], [(-106);9;100;400;59999;999999996;0;0;0;0;0], [(-74);20;499999999;73863733;0;69305769;1000000;0;0;0;0], []), [(-1)]);
  ((6, 1, 10), ([67;10;999999999;0;18737310;0;964185501;190662068;610093000;707531205;999999999], [], [], []), [0;67;10;999999999;0;18737310;0;964185501;190662068;610093000;707531205;999999999]);
  ((3, 1, 40), ([(-101);0;999999999;644152162;355847837;165782162;6442;0;0;0;0], [(-116);54;644152163;0;0;0;0;0;0;0;0], [(-22);0;999999999;999999997;690952621;499636913;0;0;0;0;0], []), [0;72;9;751240448;711832680;631743653;519924693;106402168;288513551;453611444;496539762;552428227]);
  ((7, 0, (-37)), ([14;0;0;0;0;0;0;0;0;0;0], [], [24;11;999999998;0;751302425;999999999;1000;2;862654254;69999999;1999999], []), [0;1;0;0;0;0;0;0;0;0;0;0]);
  ((10, 0, 0), ([0;12;366867213;0;0;0;0;0;0;0;0], [], [], []), [0;0;0;2;366867213;0]);
  ((2, 1, 0), ([27;23;278060009;814285807;80000000;0;490612227;999999996;0;0;0], [40;10;244522931;1;10;100;0;0;999999997;0;0], [(-119);9;237783288;999999999;0;0;0;0;0;0;0], []), [0;72;9;959058072;632486524;316465177;896425253;574285463;80000100;528163319;490612237;999999993]);
  ((10, 1, 0), ([54;18;0;0;0;0;0;0;0;999999999;0], [], [], []), [0;0;6;2;0;0;0;0;0;0;0;999999999]);
  ((4, 1, 0), ([36;2;999999997;499999998;749274583;999999999;0;0;0;0;0], [(-101);27;1;0;0;0;0;0;0;0;0], [36;39;999999999;1;151503025;0;0;0;0;0;0], []), [0;0;27;0;0;0;0;0;0;0;0;0]);
  ((7, 1, 17), ([36;18;10000;0;512606880;807387317;1000000;753772655;4000;500585511;388134068], [], [63;17;699294717;0;0;112243781;0;529396800;814152942;0;0], []), [0;36;17;10000;0;512606880;807387317;1000000;753772655;4000;500585511;388134068]);
  ((8, 1, 0), ([(-101);53;999999999;0;37060456;999999999;446504326;468608457;10;0;0], [], [], []), [0;(-10)]);
  ((4, 0, 0), ([19;72;590419066;121678989;0;0;0;0;0;0;0], [(-121);9;499999999;0;0;0;0;0;0;0;0], [52;9;0;0;0;0;0;0;986315372;0;0], []), [(-1)]);
  ((0, 1, 0), ([42;0;10;100;30338888;499999998;999999999;0;0;0;0], [(-128);36;630606782;499999998;0;999999999;0;0;0;0;0], [(-92);43;10000;500000000;999999997;437893679;0;999999999;730264153;500000001;0], []), [(-1)]);
  ((1, 0, 0), ([9;0;827096235;0;0;0;0;0;0;0;0], [63;18;500000001;2;149590435;323451524;0;500000001;876495196;847634515;0], [(-119);19;100000000;491383256;999999998;1000000;999999999;570345244;799999;123441845;0], []), [(-1)]);
  ((7, 0, 18), ([14;43;0;390230532;10000;0;499999998;(-1);9000000;207128689;993800084], [], [6;63;0;0;0;0;0;0;114485704;7000;0], []), [0;18;18;0;499999998;(-1);9000000;0;0;0;0;0]);
  ((2, 1, 0), ([14;7;100000;649476728;300;887881526;999999999;3;308654695;949203449;532863519], [9;27;0;0;0;0;0;0;0;0;0], [35;31;79999;1000000;0;1000000;0;0;0;0;0], []), [0;1;0;0;0;0;0;0;0;0;0;0]);
  ((13, 1, 9223372036854775807), ([0;74;999999996;0;0;0;0;0;0;0;0], [], [], []), [0;27;0;854775807;223372036;9;0;0;0;0;0;0]);
  ((13, 0, 1000000000000000000), ([9;28;353776907;1;0;0;0;0;0;0;0], [], [], []), [0;27;0;0;0;1;0;0;0;0;0;0]);
  ((12, 1, 0), ([36;18;851220578;364220862;0;1;0;19;10000000;88539162;321839428], [], [46;8;358598897;500000002;0;0;0;0;0;0;0], [51;57;48;54;50;52;48;48;56;48;57;56;57;56;54;56;57;53;57;57;57;50;51;49;52;57;48;57;57;57;49;54;57;50;49;51;46;49;48;57;48;53;48;55;57;55;57;48;56;48;55;49;56;52;56;54;54;52;48;52;54;57;48;51;54;56;53;101;43;48;57]), [1;0;46;8;358598897;500000002;0;0;0;0;0;0;0]);
  ((13, 0, (-9223372036854775808)), ([72;36;0;0;0;0;0;0;0;0;266424341], [], [], []), [0;(-109);0;854775808;223372036;9;0;0;0;0;0;0]);
  ((1, 1, 0), ([72;7;2;19999;999999999;0;999999998;9172839;98143521;790594152;355768995], [45;9;380325943;500000001;999999999;0;29;999999996;0;0;0], [(-119);0;0;0;0;0;0;0;0;0;0], []), [(-1)]);
  ((3, 1, 20), ([19;0;99;0;999999800;49;0;0;0;0;0], [0;0;100;0;0;0;0;0;0;0;0], [63;9;2;287118392;0;693485448;29999;0;0;0;0], []), [1;1;1;0;0;0;0;0;0;0;0;0;0]);
  ((11, 0, (-1)), ([27;0;500000000;0;354969198;0;0;0;0;0;0], [], [], []), [0;51;53;52;57;54;57;49;57;56;48;48;48;48;48;48;48;48;48;53;48;48;48;48;48;48;48;48]);
  ((4, 0, 0), ([50;11;499999998;11226538;123876707;10000000;362542587;0;1000000;0;0], [0;5;0;0;0;0;0;0;0;0;0], [18;0;0;999999998;0;0;0;0;0;0;0], []), [1;1;1;0;0;0;0;0;0;0;0;0;0]);
  ((7, 1, (-300)), ([54;63;999999999;0;999999999;0;999999999;0;935125597;64723334;45752335], [], [36;22;40000000;999999999;634306663;0;702885292;999999999;955997686;7;499999998], []), [0;1;0;0;0;0;0;0;0;0;0;0]);
  ((2, 0, 0), ([(-110);2;0;0;0;0;0;0;0;0;0], [26;0;0;106467745;999999998;0;0;0;0;0;0], [(-125);10;0;356790163;999999998;0;0;0;0;0;0], []), [0;1;0;0;0;0;0;0;0;0;0;0]);
  ((12, 1, 1), ([88;27;0;124895930;341037049;10000;0;504515333;478216515;500000001;699999999], [], [45;0;0;346735437;196536134;3;79173143;0;0;0;0], [49;56;48;56;55;48;48;48;48;56;46;56;51;55;55;55;101;45;53;50;53]), [1;0;1;0;0;0;0;0;0;0;0;0;0]);
  ((5, 1, 0), ([(-114);6;0;0;0;0;0;0;0;0;0], [(-114);6;0;0;0;0;0;0;0;0;0], [], []), [0;0]);
  ((7, 0, (-1)), ([11;0;499999999;742306036;0;0;0;0;0;0;0], [], [(-116);0;500000000;3;999999998;0;3;999999999;0;0;0], []), [0;18;0;500000000;742306036;0;0;0;0;0;0;0]);
  ((4, 1, 0), ([(-128);62;599999999;0;788640971;0;664691380;49;999535967;122393611;499999999], [(-92);18;0;0;0;0;0;0;0;0;0], [(-65);26;816543767;0;0;0;0;0;0;0;0], []), [1;1;1;0;0;0;0;0;0;0;0;0;0]);
  ((12, 1, 1), ([101;18;999999996;0;0;0;0;0;0;0;0], [], [(-83);36;661797112;10000;0;0;199;999999999;999999999;728472259;0], [57;53;51;50;48;53;55;48;53;55;46]), [0;10;0;532057057;9;0;0;0;0;0;0;0]);
  ((3, 0, 0), ([65;35;980000001;9999999;20000000;3941019;0;0;0;0;0], [(-117);25;10000000;0;0;0;0;0;0;0;0], [(-92);8;90000;999999999;114360526;658415594;0;0;0;0;0], []), [(-1)]);
  ((3, 1, 4), ([117;0;999999996;199062188;750510654;637586026;2;0;0;0;0], [18;16;999999999;66354062;250170218;879195342;0;0;0;0;0], [18;5;0;0;0;0;0;0;0;0;0], []), [(-1)]);
  ((6, 1, 0), ([54;60;0;0;0;0;0;0;0;0;465665943], [], [], []), [(-1)]);
  ((2, 1, 0), ([18;21;79777734;999999998;10000;506760104;999999999;1;740423450;485599581;999999999], [10;9;348546240;999999999;999999998;999999998;0;999999999;99290063;2;1], [9;18;0;0;100000;300000000;1;0;999999998;999999999;618057415], []), [0;36;30;221420160;250936015;731168507;910980180;321312981;841796137;506760103;999999998;0]);
  ((9, 1, 0), ([72;9;0;999999997;601158009;10000;139275815;51020180;999999999;630285137;0], [], [], []), [1;3]);
  ((3, 0, 100), ([81;6;999999999;0;0;0;0;0;0;0;0], [(-123);25;1;0;0;0;0;0;0;0;0], [(-92);0;999999996;0;703705804;0;0;0;0;0;0], []), [(-1)]);
  ((12, 1, 0), ([45;33;409323009;384074056;232170891;602546635;999999997;335006590;0;77656840;0], [], [66;13;477727517;999999999;311260467;0;1;889727428;500000002;8000000;738695022], [52;46]), [0;1;0;4;999999999;311260467;0;1;889727428;500000002;8000000;738695022]);
  ((5, 1, 0), ([(-120);5;0;0;0;0;0;0;0;0;0], [(-92);31;3000;999999998;504735309;999999997;0;90447992;0;0;804078070], [], []), [0;1]);
  ((3, 0, 299), ([18;4;0;0;0;0;0;0;0;0;0], [118;27;500000002;3;352016239;3;0;1000;243719578;377973003;0], [0;0;300000000;850573675;999999997;222796927;784640029;296325972;999999996;499999999;626936979], []), [(-1)]);
  ((4, 0, 0), ([34;0;0;0;0;0;0;0;0;0;0], [36;16;0;1;499583509;10000;0;0;0;0;0], [(-121);3;999999998;999999999;0;0;0;0;0;0;0], []), [0;1;0;0;0;0;0;0;0;0;0;0]);
  ((3, 0, 9223372036854775808), ([(-127);9;0;678726304;0;999999999;0;0;0;0;0], [(-128);27;0;0;0;0;0;0;0;0;0], [72;16;0;0;0;0;0;0;0;0;0], []), [1;1;1;0;0;0;0;0;0;0;0;0;0]);
  ((3, 0, 133), ([(-119);0;239299671;752491296;921975910;116891297;99040308;801919383;0;0;0], [30;18;500000001;801919383;0;0;0;0;0;0;0], [(-107);7;500000001;665169678;40000000;427565767;0;0;0;0;0], []), [(-1)]);
  ((3, 1, 20), ([4;22;0;0;0;0;0;0;0;0;0], [2;7;397555370;100000;0;0;0;0;0;0;0], [9;17;3;391698010;999999997;0;0;0;0;0;0], []), [0;1;0;0;0;0;0;0;0;0;0;0]);
  ((4, 0, 0), ([27;47;500000000;881837129;0;0;0;0;0;0;0], [72;0;0;0;0;0;0;0;0;0;0], [11;5;360837087;1;939796967;734386422;499999998;500000000;997506255;694308571;500000000], []), [1;1;1;0;0;0;0;0;0;0;0;0;0]);
  ((1, 0, 0), ([55;14;500000001;0;999999999;500000001;592662401;1;499999999;0;0], [0;5;269322372;0;0;0;0;0;0;0;0], [0;0;499999999;10000000;999999996;0;0;999999999;946440074;500000000;500000000], []), [(-1)]);
  ((10, 0, 0), ([9;0;0;0;0;0;0;0;0;0;0], [], [], []), [0;0;1;0;0]);
  ((7, 1, 26), ([19;0;0;0;0;0;0;0;0;0;0], [], [(-119);0;0;0;0;0;0;0;0;0;0], []), [0;19;26;0;0;0;0;0;0;0;0;0]);
  ((4, 0, 0), ([15;0;1;499999999;497512300;2487701;999999998;0;0;0;0], [18;12;0;999999999;0;0;0;0;0;0;0], [36;19;999999999;651005720;999999996;999999999;0;0;0;0;0], []), [0;0;12;0;500000000;0;0;0;0;0;0;0]);
  ((4, 1, 0), ([13;18;1;971844843;649708608;0;0;0;0;0;0], [(-81);7;699999999;0;0;0;0;0;0;0;0], [23;2;0;999999996;0;100000;0;0;0;0;0], []), [0;0;18;1;0;0;0;0;0;0;0;0]);
  ((2, 0, 0), ([8;0;999999999;0;0;0;0;0;0;0;0], [27;0;0;314639254;19625822;985111773;999999997;703134913;1;319917805;1], [36;45;3;106799169;236601944;50;541791239;957417465;150488948;0;697511101], []), [0;36;0;0;685360746;295013431;19625822;0;0;0;0;0]);
  ((5, 0, 0), ([3;42;411642915;0;0;0;0;0;0;0;0], [5;4;585554185;913747644;0;0;0;0;0;0;0], [], []), [0;(-1)]);
  ((4, 1, 0), ([19;22;49999999;999999997;0;0;0;0;0;0;0], [0;0;1;0;0;0;0;0;0;0;0], [(-90);6;671338387;699999999;499999999;0;520960543;100;2;85934002;500000001], []), [1;1;1;0;0;0;0;0;0;0;0;0;0]);
  ((10, 1, 0), ([60;3;0;0;0;0;0;0;0;0;0], [], [], []), [0;0;7;1;0;0;0;0;0;0;0;0]);
  ((5, 1, 0), ([0;21;0;0;0;0;0;0;0;0;0], [68;0;0;0;0;0;0;0;0;0;0], [], []), [0;0]);
  ((5, 1, 0), ([(-81);12;499999998;0;336214736;0;1000000;499999;80706041;999999999;0], [47;12;499999998;0;336214736;0;1000000;499999;80706041;999999999;0], [], []), [0;(-1)]);
  ((11, 1, (-5)), ([(-128);9;0;0;0;0;0;0;0;0;0], [], [], []), [0;45;48;46;48;48;48;48;48;48;48;48;48]);
  ((2, 0, 0), ([(-65);18;500000001;98976741;99;999999999;0;1000;999999997;87938965;765378615], [(-101);0;94776288;0;1000000;0;0;0;0;0;0], [41;7;0;0;0;0;0;0;0;0;0], []), [1;2;1;0;0;0;0;0;0;0;0;0;0]);
  ((5, 1, 0), ([45;2;0;0;0;0;0;131100305;500000000;0;0], [45;2;0;0;0;0;0;131100305;500000000;0;0], [], []), [0;0]);
  ((12, 0, 0), ([29;0;0;10000000;209280905;999999999;0;0;0;0;0], [], [(-116);34;999999999;0;0;0;0;0;0;0;0], [48;54;52;56;52;53;48;48;48;48;49;48;55;49;55;55;55;57;50;57;55;52;56;55;55;52;46;50;52;53;48;48;51;55;52;56]), [0;26;9;245003748;929748774;1071777;6484500;0;0;0;0;0]);
  ((7, 0, 256), ([(-65);9;0;513327786;714657279;999999999;3;999999999;500000000;613103128;0], [], [52;27;232926632;391392036;999999999;70000;2;999999999;756523422;666312889;775361991], []), [(-1)]);
  ((4, 0, 0), ([9;8;1;0;0;0;0;0;0;0;0], [(-110);15;1;0;0;0;0;0;0;0;0], [(-119);19;0;199999999;1;818856228;0;0;0;0;0], []), [0;0;15;0;0;0;0;0;0;0;0;0]);
  ((4, 1, 0), ([54;27;0;303672733;100000;999999999;230594615;999999999;0;999999999;0], [18;0;634107345;999999999;0;0;0;0;0;0;0], [(-101);(-51);100;90000000;745685009;0;0;0;0;0;0], []), [0;18;27;0;303672733;100000;787898244;494543630;0;0;0;0]);
  ((3, 1, 4), ([(-115);9;999999999;999999999;4193598;0;0;0;0;0;0], [54;15;0;0;599;0;0;0;0;0;0], [9;13;499999999;100000;999999999;0;0;0;0;0;0], []), [0;(-114);36;991652754;918196994;998330550;999999999;999999999;7000;0;0;0]);
  ((7, 1, 0), ([(-56);27;0;505281644;573157109;499999999;5;271254323;500000002;0;0], [], [27;9;100;999999998;999999996;999999999;0;0;0;0;0], []), [(-1)]);
  ((2, 1, 0), ([73;15;0;0;0;0;0;0;40;166148972;573156415], [(-119);7;0;2147483647;999999996;0;829563595;999999999;460191224;49999999;999999999], [0;0;0;0;0;0;0;0;0;0;0], []), [1;2;1;0;0;0;0;0;0;0;0;0;0]);
  ((10, 0, 0), ([(-99);3;0;0;1;160237292;0;0;0;0;0], [], [], []), [0;1;4;1;0;0;1;160237292;0]);
  ((3, 0, 9223372036854775808), ([14;0;0;0;0;0;0;0;0;0;0], [(-85);13;999999999;0;937532881;0;999999999;100000000;1000000;0;0], [15;18;8462499;2;3;975669533;0;0;1;3;0], []), [0;1;0;0;0;0;0;0;0;0;0;0]);
  ((4, 0, 0), ([39;0;149702419;555089279;484970240;10000000;700000001;99999999;0;0;0], [(-92);9;10;999999997;0;0;0;0;0;0;0], [44;32;0;0;999999996;60;999999999;1000;799;999999998;100000000], []), [0;9;9;960;699999952;0;0;0;0;0;0;0]);
  ((6, 1, (-77)), ([51;19;0;0;500000000;247161757;59;957440220;999999999;0;1], [], [], []), [0;1;0;0;0;0;0;0;0;0;0;0]);
  ((4, 1, 0), ([(-101);63;302184964;562901810;0;0;0;0;0;0;0], [30;(-28);302184964;562901810;0;0;0;0;0;0;0], [9;9;247306999;10000000;0;0;0;0;0;0;0], []), [(-1)]);
  ((4, 0, 0), ([27;7;0;0;999999997;0;0;0;0;0;0], [(-81);27;1;0;0;0;0;0;0;0;0], [63;88;0;0;0;0;0;940143563;999999999;0;0], []), [0;0;27;0;0;0;0;0;0;0;0;0]);
  ((3, 0, 1), ([27;0;522114857;138009357;2;0;0;0;0;0;0], [63;11;763424636;0;0;0;0;0;0;0;0], [(-3);0;500000000;4000;367229305;0;10000000;480692075;99999;796737242;1000000005], []), [0;28;18;881123841;909965032;309886991;1;800550646;2;0;0;0]);
  ((10, 1, 0), ([0;36;999999998;0;0;0;0;0;0;0;0], [], [], []), [0;0;0;4;999999998;0;0;0]);
  ((13, 1, 9223372036854775807), ([(-62);0;2;711617380;0;669719951;5;499999998;4999;0;149853844], [], [], []), [0;27;0;854775807;223372036;9;0;0;0;0;0;0]);
  ((6, 0, 17), ([(-119);17;0;0;0;0;0;0;0;0;0], [], [], []), [0;(-119);17;0;0;0;0;0;0;0;0;0]);
  ((6, 1, (-37)), ([54;15;0;0;0;0;0;0;0;0;0], [], [], []), [0;54;0;0;0;0;0;0;0;0;0;0]);
  ((8, 0, 0), ([63;0;0;0;999999999;292052543;0;0;0;0;0], [], [], []), [1;3]);
  ((3, 1, 40), ([(-128);9;797069879;133326554;529635516;58271028;470864484;0;0;0;0], [(-99);3;999999999;999999997;0;0;0;0;0;0;0], [8;20;999999999;0;189484181;808419812;0;0;0;0;0], []), [0;0;36;985349404;594139761;797069880;0;0;0;0;0;0]);
  ((4, 0, 0), ([36;0;0;1000;79999999;500000000;0;0;0;0;0], [35;14;1;500000000;640588746;0;100000000;279686382;(-2147483648);50;999999999], [(-74);9;584340341;999999999;10;27003435;982581606;820321902;0;499999999;127265833], []), [0;36;14;999999999;499999999;359411253;999;979999999;220313617;0;0;0]);
  ((13, 1, 9223372036854775807), ([(-44);13;925438371;938660267;999999999;999999999;999999999;950218690;0;0;0], [], [], []), [0;27;0;854775807;223372036;9;0;0;0;0;0;0]);
  ((3, 1, 1), ([22;8;0;0;0;0;0;0;0;0;0], [(-83);36;0;0;0;0;0;100000;2;881859691;0], [(-92);6;619558272;999999999;100000;999999996;381324938;0;0;0;0], []), [0;1;0;0;0;0;0;0;0;0;0;0]);
  ((7, 1, 12), ([(-126);25;95132015;99;0;0;0;0;0;0;0], [], [104;43;0;0;0;6;999999999;0;933461999;0;0], []), [0;(-119);12;0;0;0;0;0;0;0;0;0]);
  ((3, 0, 9), ([18;35;500000001;999999999;0;0;0;0;0;0;0], [6;27;29999999;39803220;10;428526701;0;0;0;0;0], [(-110);36;1;0;499999998;999999999;217310881;0;499999998;0;0], []), [0;0;36;333576874;2;0;0;0;0;0;0;0]);
  ((14, 1, 1000000000000000000), ([0;12;2;500000002;999999996;499999998;937757254;1;2;2147483647;134414538], [], [], []), [0;27;0;0;0;1;0;0;0;0;0;0]);
  ((7, 0, 0), ([(-105);0;1;500000002;0;109166815;(-1000000000);599999999;700000000;376643212;999999997], [], [(-114);0;500000002;999999998;0;0;0;0;0;0;0], []), [0;(-105);0;1;500000002;0;109166815;(-1000000000);599999999;700000000;376643212;999999997]);
  ((11, 0, (-5)), ([0;2;0;0;0;0;0;0;0;0;0], [], [], []), [0;48;46;48;48]);
  ((4, 1, 0), ([32;9;999999999;144597035;79999999;0;199999999;999999999;0;837430388;999999999], [14;2;1000000000;999999996;895671754;864135045;500000001;163023939;499999998;879245904;0], [22;0;204288721;400;3;0;789722808;10000000;670699413;10000000;0], []), [0;18;9;999999999;65568842;856151168;0;0;0;0;0;0]);
  ((12, 1, 1), ([36;45;26797935;0;0;0;10000;500000000;583379341;155050055;1000], [], [(-31);2;377349085;30036477;0;0;0;0;0;0;0], [45;48;50;51;50;48;53;50;54;51;54;52;52;49;55;48;57;54;49;46;53;48;57;53;48;51;53;48;56;50;55;54;57;57;57;57;56;55;49]), [0;(-110);19;100000000;276999987;509503508;644170961;23205263;0;0;0;0]);
  ((10, 0, 0), ([17;0;8000;999999999;0;0;0;0;0;0;0], [], [], []), [0;0;2;0;8000;999999999]);
  ((4, 0, 0), ([(-101);8;200194886;433268371;466634185;233560701;0;0;0;0;0], [12;0;66731629;0;0;0;0;0;0;0;0], [27;28;999999997;999999999;500000001;0;8;259405669;3;0;50000], []), [0;(-128);8;200194886;0;0;0;0;0;0;0;0]);
  ((7, 0, 6), ([9;6;999999999;533578879;999999999;0;0;199999;379816110;0;779456053], [], [1;18;0;0;0;0;0;0;0;0;0], []), [0;9;6;999999999;533578879;999999999;0;0;199999;379816110;0;779456053]);
  ((1, 1, 0), ([(-122);0;1000;0;0;0;0;0;0;0;0], [0;23;7;1;0;147681309;400701734;163707074;2;895166966;999999999], [72;7;0;0;0;0;0;979951978;999999999;348435352;80000000], []), [0;(-119);23;7;1;0;1000;0;0;0;0;0]);
  ((4, 1, 0), ([9;0;0;0;0;0;0;0;0;0;0], [63;0;499999999;0;336831890;0;0;500000001;484484907;3;0], [29;9;1;570232611;999999999;1000;448231241;0;0;0;0], []), [0;1;0;0;0;0;0;0;0;0;0;0]);
  ((8, 1, 0), ([36;0;0;0;0;0;0;0;0;0;0], [], [], []), [0;0]);
  ((4, 0, 0), ([41;0;609365340;946019596;816845299;295231434;0;0;0;0;0], [(-56);1;500000002;0;0;0;0;0;0;0;0], [(-128);0;0;0;999999999;10;0;1000000;692011370;837397304;0], []), [0;0;1;0;0;0;0;0;0;0;0;0]);
  ((7, 0, 27), ([(-101);9;999999998;999999999;232612000;39999;0;0;0;0;0], [], [5;15;999999999;199999999;705174468;0;0;0;0;0;0], []), [0;(-101);27;0;0;999999998;999999999;232612000;39999;0;0;0]);
  ((3, 0, 4), ([20;1;2;93045674;999999999;0;(-2147483648);896098724;0;999999999;1], [(-128);59;0;151053246;385441539;420771405;999999999;500000002;4999;0;0], [16;15;0;0;0;0;0;0;0;0;0], []), [0;(-104);36;162606194;756532844;204508561;761443115;989897921;1818670;200020;0;0]);
  ((10, 1, 0), ([0;9;878206350;0;0;0;0;0;0;0;0], [], [], []), [0;0;0;1;878206350]);
  ((5, 1, 0), ([5;48;999999998;999999999;999999999;49999999;100000000;941647663;221291378;0;0], [(-107);63;0;0;100000000;273800013;0;0;100000;0;0], [], []), [0;1]);
  ((3, 0, 1), ([(-101);25;0;430576030;500000000;999999999;0;0;0;0;0], [(-83);23;916943681;2;0;499999999;781468301;999999996;500000001;0;0], [(-119);9;0;0;0;0;0;0;0;0;0], []), [0;0;36;999999991;1;0;0;0;0;0;0;0]);
  ((6, 1, (-21)), ([36;9;499999998;337392272;470326246;999999999;999999999;0;0;0;0], [], [], []), [0;45;0;0;0;0;0;1;0;0;0;0]);
  ((3, 1, 1), ([18;0;1;999999999;0;0;0;0;0;0;0], [3;47;1000;0;0;0;0;0;0;0;0], [12;31;0;807231744;0;0;0;0;0;0;0], []), [0;69;9;0;0;0;0;0;0;1000000;999000000;999999]);
  ((14, 0, 15688394838164554550), ([36;9;0;49999999;0;3;1000;0;0;0;0], [], [], []), [0;27;0;164554550;688394838;15;0;0;0;0;0;0]);
  ((2, 1, 0), ([(-128);19;500000000;0;0;0;0;0;0;0;0], [(-76);6;0;0;0;0;100000000;560469293;0;0;0], [(-104);24;283273231;0;37666154;0;0;0;0;0;0], []), [0;54;25;0;0;0;0;550000000;280234646;0;0;0]);
  ((3, 0, 137), ([9;0;43414525;0;0;0;0;0;0;0;0], [(-78);18;1;0;0;0;0;0;0;0;0], [38;25;0;0;0;999999999;25131711;1;100000;0;0], []), [(-1)]);
  ((3, 0, 56), ([(-121);0;1;484638640;515361359;0;0;0;0;0;0], [19;44;515361360;0;0;0;0;0;0;0;0], [(-110);7;0;0;80000000;0;0;0;0;0;0], []), [0;(-91);36;985941049;975842503;387526918;824431385;442512647;707216078;315576006;940386062;1]);
  ((11, 0, 162), ([33;0;0;999999996;537457462;392646604;0;0;0;0;0], [], [], []), [0;51;57;50;54;52;54;54;48;52;53;51;55;52;53;55;52;54;50;57;57;57;57;57;57;57;57;54;48;48;48;48;48;48;48;48;48;46;48;48;48;48;48;48;48;48;48;48;48;48;48;48;48;48;48;48;48;48;48;48;48;48;48;48;48;48;48;48;48;48;48;48;48;48;48;48;48;48;48;48;48;48;48;48;48;48;48;48;48;48;48;48;48;48;48;48;48;48;48;48;48;48;48;48;48;48;48;48;48;48;48;48;48;48;48;48;48;48;48;48;48;48;48;48;48;48;48;48;48;48;48;48;48;48;48;48;48;48;48;48;48;48;48;48;48;48;48;48;48;48;48;48;48;48;48;48;48;48;48;48;48;48;48;48;48;48;48;48;48;48;48;48;48;48;48;48;48;48;48;48;48;48;48;48;48;48;48;48;48;48;48;48;48;48;48;48;48;48;48;48]);
  ((12, 0, 0), ([52;0;3;0;0;0;0;0;0;0;0], [], [47;0;0;740087888;999999999;0;488859883;100000;0;0;0], [45;46;48;48;54;48;49;57;54;53;56;57;56;48;54;53;57;55;51;49;56;54;56;55;52;54;49;48;52;50;53;57;48;48;49;52;54]), [0;(-128);35;259001460;868746104;980659731;6019658;488859883;100000;0;0;0]);
  ((2, 1, 0), ([(-101);9;273553214;3000000;4;80432157;0;0;0;0;0], [(-54);0;1;473568554;499999998;2;60;10;0;0;10000000], [19;0;0;0;0;0;0;0;0;0;0], []), [1;2;1;0;0;0;0;0;0;0;0;0;0]);
  ((6, 0, 31), ([27;0;0;0;0;0;0;0;0;0;0], [], [], []), [0;27;31;0;0;0;0;0;0;0;0;0]);
  ((10, 1, 0), ([18;0;699;500000001;0;0;0;0;0;0;0], [], [], []), [0;0;2;0;699;500000001]);
  ((6, 0, 40), ([(-92);0;0;0;0;0;0;0;0;0;0], [], [], []), [0;(-92);40;0;0;0;0;0;0;0;0;0]);
  ((4, 0, 0), ([8;0;999999999;657090241;502207624;959599296;489722761;791800769;43007345;0;0], [(-101);5;0;2;60168906;0;0;0;0;0;0], [36;0;0;0;0;0;0;0;0;0;0], []), [0;8;5;0;999999999;0;0;0;0;0;0;0]);
  ((7, 0, (-11)), ([81;0;3;20000;1000;452806320;377978124;572796190;999999999;0;0], [], [(-56);16;382000397;999999999;999999999;499999998;999999999;0;999999999;5;748328464], []), [0;81;0;0;20000;1000;452806320;377978124;572796190;999999999;0;0]);
  ((2, 1, 0), ([69;0;0;0;0;0;0;0;0;0;0], [(-110);37;999999997;387735797;499999999;0;0;0;0;0;0], [13;28;0;79999;0;0;0;0;0;0;0], []), [0;1;0;0;0;0;0;0;0;0;0;0]);
  ((3, 1, 9223372036854775808), ([18;18;1000000;840152910;0;0;0;0;0;0;0], [18;18;0;0;0;805016230;0;0;0;0;0], [37;0;999999999;5;182870701;433418427;3;500000000;924158128;0;999999999], []), [0;0;36;698678000;43647169;1;0;0;0;0;0;0]);
  ((10, 0, 0), ([(-92);17;668187471;938384370;3;10000000;999999999;23197043;0;0;0], [], [], []), [0;1;4;2;668187471;938384370;3;10000000;999999999;23197043]);
  ((3, 0, 100), ([96;54;999999999;411859613;0;900;833936656;0;0;0;0], [3;0;0;1;0;0;0;0;0;0;0], [0;5;0;0;0;0;0;0;0;0;0], []), [1;1;1;0;0;0;0;0;0;0;0;0;0]);
  ((9, 0, 0), ([32;37;500000002;499999999;0;0;999999996;499999998;0;0;0], [], [], []), [0;499999999]);
  ((7, 0, 28), ([0;28;999999999;0;0;0;0;0;0;0;0], [], [26;0;999999998;0;9000000;0;0;0;0;0;0], []), [0;0;28;999999999;0;0;0;0;0;0;0;0]);
  ((12, 0, 0), ([(-65);9;1000000;951115515;100000000;901633753;399999999;0;0;0;0], [], [(-47);0;474333795;1;561851467;763084139;0;0;999999999;105226389;999999998], [45;57;57;57;48;48;55;46;55;49;57;50;51;55;56;53;57;48]), [0;(-122);10;0;719237859;999007;763084139;0;0;999999999;105226389;999999998]);
  ((13, 0, (-9256135833)), ([51;0;999999999;0;1;3;100000;605477263;0;218021708;572231220], [], [], []), [0;(-110);0;256135833;9;0;0;0;0;0;0;0]);
  ((10, 0, 0), ([12;0;433314903;0;0;0;0;0;0;0;0], [], [], []), [0;0;2;0;433314903;0]);
  ((12, 0, 1), ([(-101);18;500000001;500000000;100000;999999999;3;0;0;0;0], [], [(-110);18;787480237;999999997;999999998;500000000;0;0;0;0;0], [45;55;57;49;56;56;48;55;57;55;56;48;49;52;52;56;49;48;48;50;52;57;57;48;48;57;54;57;51;48;56;57;55;55;55;53;48;51;54;48;56;49;57;56;51;48;57;57;48;48;57;48;55;56;57;55;48;49;52;51;49;51;57;54;57;54;46;49;55;48;50;50;55;49;57;48;53;54;56;49;48;53;54;48;53;51;54;57;56;57;57;51;48;57;48;56;48;55;53;69;45;48]), [1;0;1;0;0;0;0;0;0;0;0;0;0]);
  ((4, 1, 0), ([(-128);29;400000003;736404127;889953097;733784851;67833476;0;0;0;0], [(-115);11;499999998;288595880;0;0;0;0;0;0;0], [0;2;500000002;0;0;0;0;0;0;0;0], []), [0;(-128);29;400000003;736404127;889953101;156593090;0;0;0;0;0]);
  ((4, 0, 0), ([9;71;999999997;0;0;0;0;0;0;0;0], [18;12;1;0;0;0;0;0;0;0;0], [12;0;0;0;0;0;0;0;0;0;0], []), [0;9;71;999999997;0;0;0;0;0;0;0;0]);
  ((4, 0, 0), ([(-119);0;0;0;0;0;0;0;0;0;0], [9;10;499999999;747944775;635278292;3000000;10000;2;682132654;65062601;894657368], [(-101);21;1000;0;44919870;2;0;563552804;30;19;3], []), [0;1;0;0;0;0;0;0;0;0;0;0]);
  ((11, 1, 109), ([31;5;0;0;0;0;999999996;0;0;0;0], [], [], []), [0;57;57;57;57;57;57;57;57;54;48;48;48;48;48;48;48;48;48;48;48;48;48;48;48;48;48;48;48;48;48;48;48;48;48;48;48;46;48;48;48;48;48;48;48;48;48;48;48;48;48;48;48;48;48;48;48;48;48;48;48;48;48;48;48;48;48;48;48;48;48;48;48;48;48;48;48;48;48;48;48;48;48;48;48;48;48;48;48;48;48;48;48;48;48;48;48;48;48;48;48;48;48;48;48;48;48;48;48;48;48;48;48;48;48;48;48;48;48;48;48;48;48;48;48;48;48;48;48;48;48;48;48;48;48;48;48;48;48;48;48;48;48;48;48;48;48]);
  ((10, 1, 0), ([(-115);0;0;0;0;0;0;0;0;0;0], [], [], []), [0;1;2;0;0;0]);
  ((3, 0, 1), ([9;3;0;588841312;337876876;91111963;555154128;249999999;0;0;0], [39;30;0;110308256;499999999;0;0;0;0;0;0], [(-128);26;10000;614280616;6000;0;0;0;0;0;0], []), [0;19;36;988747108;443010591;665649427;978897834;95549018;177682626;1;0;0]);
  ((5, 0, 0), ([(-101);0;499999999;181693736;0;0;0;0;0;0;0], [(-126);0;499999998;10000;40000;928878398;721562711;999999996;206613674;264306573;725057687], [], []), [0;(-1)]);
  ((3, 0, 0), ([9;0;500000001;0;0;0;0;0;0;0;0], [34;7;499999998;500000001;277876890;0;794243730;0;0;0;0], [26;5;88704615;999999997;0;0;0;0;0;0;0], []), [0;0;9;0;0;0;0;0;0;0;0;0]);
  ((3, 0, 9223372036854775808), ([0;0;0;3;465611868;0;224043281;3;0;999999999;999999998], [18;0;0;0;0;0;0;0;0;0;0], [0;46;832020584;0;999999997;221624207;0;9999999;350687037;999999999;640755113], []), [1;1;1;0;0;0;0;0;0;0;0;0;0]);
  ((7, 1, 90), ([15;0;172302349;312551723;0;0;0;0;0;0;0], [], [27;29;920310396;1000000;0;0;0;1000000;2;0;0], []), [(-1)]);
  ((0, 0, 0), ([(-113);2;999999999;1;0;200000000;400000;0;999999999;432465463;999999997], [8;0;0;0;0;0;0;0;0;0;0], [24;45;116656135;55962775;553571789;999999996;500000001;500000000;999999999;999999998;0], []), [0;(-113);2;999999999;1;0;200000000;400000;0;999999999;432465463;999999997]);
  ((3, 1, 4), ([18;0;1;0;0;0;0;0;0;0;0], [(-56);0;1;0;0;0;0;0;0;0;0], [(-110);0;999999996;328788194;404853179;0;985201481;75885349;0;375395226;682218829], []), [0;(-127);9;0;1;0;0;0;0;0;0;0]);
  ((2, 1, 0), ([0;9;0;0;0;0;0;0;0;0;0], [(-119);27;0;0;0;0;0;0;0;0;0], [28;0;0;0;0;708869856;0;0;0;0;0], []), [0;1;0;0;0;0;0;0;0;0;0;0]);
  ((3, 0, 9), ([86;0;0;0;0;0;0;0;0;0;0], [4;0;1;0;0;0;0;0;0;0;0], [(-127);0;999999999;0;0;0;0;0;0;0;0], []), [(-1)]);
  ((3, 1, 1), ([18;9;0;0;0;0;0;0;0;0;0], [9;0;0;0;0;0;0;0;0;0;0], [13;35;0;0;0;0;0;504137929;0;0;0], []), [1;1;1;0;0;0;0;0;0;0;0;0;0]);
  ((4, 0, 0), ([36;25;0;397539843;0;999999999;118090860;3;0;500000000;2], [(-97);3;0;0;0;0;0;0;0;0;0], [(-103);11;0;499999999;30585755;99999999;0;0;0;0;0], []), [1;1;1;0;0;0;0;0;0;0;0;0;0]);
  ((0, 0, 0), ([(-110);0;344122869;2;0;0;0;0;0;0;0], [27;0;3999999;384465718;1;0;0;0;0;0;0], [36;17;806770402;378566958;0;780622476;999999996;999999999;1000;0;0], []), [0;27;0;659877130;384465715;1;0;0;0;0;0;0]);
  ((3, 1, 40), ([5;0;0;0;0;0;0;0;0;0;0], [(-56);9;0;0;0;999999996;0;485677796;0;2;523726799], [18;9;0;0;1;70000;2;10000;999999999;500000000;130584858], []), [0;1;0;0;0;0;0;0;0;0;0;0]);
  ((8, 1, 0), ([18;12;619386390;999999999;455246581;792211098;0;0;0;0;0], [], [], []), [0;792211098455246582]);
  ((3, 1, 160), ([17;0;65334551;819068721;814640784;444615203;182908385;28;0;0;0], [(-56);2;596862487;280248072;0;0;0;0;0;0;0], [9;27;0;999999998;469051133;3;948545426;296097114;295189320;756748790;311317816], []), [(-1)]);
  ((7, 1, 14), ([45;35;500000002;0;640551339;633577451;999999999;0;275565987;646466390;(-1)], [], [(-116);27;754458343;999999999;688865124;29544825;1;0;0;0;0], []), [0;45;14;640550000;633577451;999999999;0;275565987;646466390;(-1);0;0]);
  ((4, 1, 0), ([29;0;0;284061621;371556660;50096617;545828320;0;0;0;0], [124;6;700000000;0;0;0;0;0;0;0;0], [27;13;784816590;999999999;84566747;500000002;800;0;0;0;0], []), [(-1)]);
  ((4, 0, 0), ([18;18;0;0;1;0;0;0;0;0;0], [8;46;999999996;999999999;999999999;999999999;999999999;10000000;199999;79999;113482605], [45;32;999999999;2147483647;202019695;1000;0;0;500000002;100000;500000002], []), [0;18;46;0;0;0;0;0;0;1;0;0]);
  ((3, 1, 20), ([0;7;490082792;890227425;341338900;500000001;3;1;999999996;0;0], [(-83);0;500000001;0;0;999999996;0;0;0;0;0], [45;33;668563242;519886282;999999999;385231253;999999996;0;999999997;3;80000000], []), [0;0;27;0;0;0;0;0;0;0;0;0]);
  ((4, 0, 0), ([111;19;791887799;318844085;999999998;0;0;0;0;0;0], [27;1;1;0;0;0;0;0;0;0;0], [(-12);0;844709427;482467577;0;0;0;0;0;0;0], []), [(-1)]);
  ((2, 0, 0), ([(-127);25;499999999;1000;10;500000001;135948021;0;500000000;27833861;999999999], [36;11;593263509;26056591;500000002;50000;563902168;209745546;0;0;0], [45;36;999999996;583197487;3;846526729;500000000;4000000;100;0;0], []), [0;(-83);36;34084162;502254977;603781451;308811698;487901840;739491018;661382843;491696632;104872773]);
  ((4, 0, 0), ([63;0;200;999999998;60;0;0;0;0;0;0], [(-128);0;1;0;0;0;0;0;0;0;0], [(-119);15;130197600;3999;999999999;699;326905232;71387254;999999999;999999997;813250380], []), [1;1;1;0;0;0;0;0;0;0;0;0;0]);
  ((3, 1, 4), ([13;9;339487370;0;0;0;0;0;0;0;0], [31;18;1;0;0;0;0;0;0;0;0], [9;13;0;1000;514149706;3;999999999;500000000;399;(-1);500000002], []), [0;18;36;0;0;0;0;0;339487370;0;0;0]);
  ((12, 0, 1), ([(-106);0;999999999;259966734;0;0;811266595;500000002;999999996;42110083;999999997], [], [9;0;500000001;0;0;0;0;0;0;0;0], [51;53;55;48;48;57;51;57;48;53;48;57;56;54;50;48;50;51;53;52;54;50;54;51;48;48;53;52;53;50;53;52;54;54;49;53;51;50;56;50;56;49;56;48;50;51;55;53;48;51;48;48;50;51;52;57;48;57;50;56;57;55;52;49;49;55;46;52;48;56;48;57;51;57;53;49;57]), [1;0;1;0;0;0;0;0;0;0;0;0;0]);
  ((0, 0, 0), ([(-107);0;815056758;999999999;848347186;0;0;0;0;0;0], [9;10;414069677;100;626228377;0;0;0;0;0;0], [26;46;0;0;0;33833039;942582696;19456423;999999996;0;0], []), [0;(-101);10;585930323;999999899;188828380;999999999;848347186;0;0;0;0]);
  ((1, 0, 0), ([4;0;4178709;100000;7999999;999999996;8999;0;0;431142828;100], [27;0;0;0;0;0;0;0;0;0;0], [28;16;145529882;450577763;999999999;999999999;70;999999999;999999999;589169962;321481102], []), [0;4;0;4178709;100000;7999999;999999996;8999;0;0;431142828;100]);
  ((10, 0, 0), ([81;0;10000;0;91240700;999999999;999999999;999999998;60000000;769291965;0], [], [], []), [0;0;9;0;10000;0;91240700;999999999;999999999;999999998;60000000;769291965;0]);
  ((3, 1, 18446744073709551615), ([81;0;0;0;0;0;0;0;0;0;0], [9;3;1;499999998;54100078;2;0;2;989592282;522312996;0], [(-65);14;999999996;31430990;0;10000;0;0;983414521;100;698806095], []), [0;1;0;0;0;0;0;0;0;0;0;0]);
  ((3, 1, 0), ([57;0;0;0;0;0;0;0;0;0;0], [49;35;0;0;0;0;0;0;0;0;0], [(-101);9;362038672;499999998;999999999;526432441;500000000;687195442;410840070;457803792;0], []), [(-1)]);
  ((3, 1, 4), ([10;15;0;0;0;0;0;0;0;0;0], [44;58;999999996;500000001;10;999999997;500000002;794212948;0;842082074;999999999], [14;44;670338031;499999999;78677758;999999998;0;567431605;999999996;0;0], []), [(-1)]);
  ((3, 0, 4), ([0;25;0;0;0;0;0;0;0;0;0], [9;3;0;0;0;0;0;0;0;0;0], [22;27;499999998;99855777;561546998;0;999999999;10;550829184;449990492;100000000], []), [1;1;1;0;0;0;0;0;0;0;0;0;0]);
  ((2, 1, 0), ([4;0;999999999;999999997;199999999;0;0;999999999;558674592;0;999999999], [17;31;477273587;999999999;0;0;0;0;0;0;0], [36;18;0;999999996;0;999999999;2;999999997;0;0;0], []), [0;27;31;522726413;477273587;999999998;0;0;0;0;0;0]);
  ((3, 1, 100), ([5;5;376791085;80000;999999999;0;0;0;0;0;0], [18;18;1;0;0;0;0;0;0;0;0], [30;6;879899068;999999998;0;0;0;999999996;999999999;742917201;999], []), [(-1)]);
  ((4, 1, 0), ([15;63;999999999;999999999;1000;0;0;0;0;0;0], [25;35;0;528853041;999999996;0;0;7000000;3;0;0], [4;18;0;0;0;0;0;0;0;0;0], []), [0;15;63;999999999;999999999;1000;0;0;0;0;0;0]);
  ((3, 1, 9223372036854775808), ([36;0;438160287;110211492;1;0;0;0;0;0;0], [2;20;509317536;2;0;0;0;0;0;0;0], [(-119);45;0;0;0;0;0;0;0;0;0], []), [0;36;27;961786658;622756927;919806045;136812210;601485270;999999999;442435632;0;0]);
  ((3, 0, 18446744073709551615), ([0;24;0;99;0;0;0;0;0;0;0], [23;27;1;0;0;0;0;0;0;0;0], [(-121);7;999999999;2;0;0;0;0;0;0;0], []), [0;11;36;0;0;0;0;0;99;0;0;0]);
  ((7, 1, 9223372036854775807), ([45;36;0;0;0;0;0;0;662807899;975379272;0], [], [27;3;0;3;999999999;999999998;0;0;0;0;0], []), [(-1)]);
  ((2, 0, 0), ([(-117);39;10000000;596994105;3;573125127;217336799;500000001;999999999;0;117211649], [81;31;0;0;1;838588097;999999999;121639821;620242758;10000;693232114], [7;45;0;0;0;0;0;0;0;0;0], []), [1;2;1;0;0;0;0;0;0;0;0;0;0]);
  ((8, 1, 0), ([81;0;0;500000000;10000;749619863;0;999999999;0;0;999999998], [], [], []), [1;3]);
  ((3, 1, 4), ([(-92);9;862889035;39546961;0;0;0;0;0;0;0], [66;0;959965277;0;0;0;0;0;0;0;0], [51;21;999999998;999999999;100000000;889127667;500000000;999999999;603542310;1;373804925], []), [0;(-128);18;1;41196242;0;0;0;0;0;0;0]);
  ((2, 1, 0), ([7;18;0;0;0;0;0;0;0;0;0], [(-110);24;89178429;0;999999998;0;732276225;0;0;0;0], [21;14;0;0;0;0;0;0;0;0;0], []), [0;1;0;0;0;0;0;0;0;0;0;0]);
  ((2, 1, 0), ([27;27;0;0;670766100;0;500000000;1;0;0;0], [(-128);0;0;0;0;0;0;0;0;0;0], [9;0;0;0;3;999999999;193545800;929098778;243784919;0;0], []), [0;1;0;0;0;0;0;0;0;0;0;0]);
  ((2, 0, 0), ([(-127);11;0;0;0;0;0;0;0;0;0], [9;70;0;0;0;0;577683655;929861042;923164158;254973594;999999999], [(-62);(-119);0;81318016;999999999;0;999999998;500000000;10;499999999;70381037], []), [0;1;0;0;0;0;0;0;0;0;0;0]);
  ((2, 1, 0), ([9;0;0;0;0;0;0;0;0;0;0], [(-92);24;0;0;0;0;0;0;6;0;0], [0;0;0;0;0;0;0;0;0;0;0], []), [0;1;0;0;0;0;0;0;0;0;0;0]);
  ((1, 1, 0), ([9;0;0;0;0;0;0;0;0;0;0], [18;24;947585225;0;587568957;17916243;0;0;0;0;0], [(-47);16;0;0;0;3;7000000;297681755;0;0;999999998], []), [0;(-110);24;947585225;0;587568957;17916243;0;0;0;0;0]);
  ((3, 1, 4), ([(-92);3;999999997;999999998;0;999999999;2;600927224;3;1;4999], [18;0;266392597;0;0;0;0;0;0;0;0], [54;12;299;0;702465954;102427739;79999;40;0;1000;0], []), [0;(-109);9;736732541;832754432;261574205;11;0;0;0;0;0]);
  ((7, 1, 30), ([0;0;3999999;545328030;3;0;553155480;2;577964628;599999999;999999996], [], [18;0;512061650;3;0;0;0;0;0;0;0], []), [0;0;30;0;0;0;0;0;0;0;0;0]);
  ((1, 0, 0), ([21;25;0;0;0;847654239;937025346;0;0;0;0], [43;32;499999998;59999;3;100;19;10000000;0;0;500000001], [(-65);9;972630025;727048288;733231230;169397110;41208090;0;0;200260338;0], []), [(-1)]);
  ((3, 0, 20), ([6;30;999999999;0;0;0;0;0;0;0;0], [21;0;10000000;915526950;500000001;0;0;0;0;0;0], [59;14;3;999999996;579925368;3;999999999;316058216;499999998;361076057;0], []), [0;0;36;0;0;0;0;0;0;0;0;0]);
  ((10, 1, 0), ([34;36;0;0;0;0;0;0;0;0;0], [], [], []), [0;0;4;4;0;0;0;0;0;0;0;0]);
  ((13, 0, 857280755391832650), ([24;9;692210223;0;1;499999998;0;0;0;0;0], [], [], []), [0;18;0;391832650;857280755;0;0;0;0;0;0;0]);
  ((10, 0, 0), ([(-113);7;999999999;999999999;1056714;0;0;0;0;0;0], [], [], []), [0;1;2;1;999999999;999999999;1056714]);
  ((1, 1, 0), ([(-128);9;0;0;0;0;0;0;0;0;0], [3;0;856140787;0;0;0;0;0;0;0;0], [0;55;1000;399999;896032373;0;396043315;9739714;1000000;1;999999999], []), [0;(-125);0;856140787;0;0;0;0;0;0;0;0]);
  ((14, 0, 0), ([27;0;0;0;0;0;0;0;0;0;0], [], [], []), [0;0;0;0;0;0;0;0;0;0;0;0]);
  ((0, 1, 0), ([63;0;999999999;438538526;56570802;0;242549953;10;500000001;0;0], [(-83);21;0;0;0;0;3;999999998;10000;115738122;0], [12;6;0;0;0;0;0;0;0;0;0], []), [(-1)]);
  ((11, 0, 0), ([27;37;315588318;808904981;0;297886478;999999999;999999997;0;499999998;0], [], [], []), [0;52;57;57;57;57;57;57;57;56;48;48;48;48;48;48;48;48;48;57;57;57;57;57;57;57;57;55]);
  ((2, 0, 0), ([(-119);27;0;851337257;58466270;413047350;0;0;0;0;0], [30;9;999999999;584040543;999999997;9999;496089471;0;0;0;0], [62;14;644969174;499999998;999999999;50000000;1;10000000;999999999;999999999;783029720], []), [0;(-83);36;0;148662743;647281537;666607233;223076259;132523909;851483203;388460481;204908441]);
  ((0, 0, 0), ([10;0;0;297124411;0;0;0;0;0;0;0], [21;55;999999998;0;4000000;999999999;0;0;499999998;6000000;975957382], [5;18;499999999;213288545;999999999;499999999;609098998;0;0;499999998;178289728], []), [(-1)]);
  ((3, 0, 0), ([25;54;254600000;24256;142690738;192563699;0;0;0;0;0], [(-128);20;100000;0;793872353;0;0;0;0;0;0], [27;0;999999999;430224684;499999999;0;0;0;0;0;0], []), [0;(-128);36;0;242562546;0;0;0;0;0;0;0]);
  ((10, 1, 0), ([(-103);0;299999;0;10000;0;0;0;0;0;0], [], [], []), [0;1;3;0;299999;0;10000]);
  ((4, 1, 0), ([(-56);0;999999997;757923992;705887581;0;0;0;0;0;0], [2;3;1;0;0;0;0;0;0;0;0], [18;38;999999999;999999997;0;0;0;0;0;0;0], []), [0;0;3;0;0;0;0;0;0;0;0;0]);
  ((8, 1, 0), ([36;24;4000;100000;500000001;2000;0;0;0;2;914308951], [], [], []), [0;2001]);
  ((13, 0, 0), ([(-104);1;499999998;3;1;1;0;0;0;0;0], [], [], []), [0;0;0;0;0;0;0;0;0;0;0;0]);
  ((7, 1, 34), ([4;41;0;0;1000;55696779;999999999;999999997;0;0;0], [], [18;36;576467112;34673302;3;999999999;0;54221193;481050624;500000001;0], []), [0;9;34;0;1000;55696779;999999999;999999997;0;0;0;0]);
  ((3, 1, 0), ([(-64);4;124440288;500000001;780218926;338124836;100000;375055310;95555851;100000;999999999], [(-119);0;0;0;0;0;0;0;0;0;0], [28;7;0;0;0;0;0;0;0;0;0], []), [1;1;1;0;0;0;0;0;0;0;0;0;0]);
  ((6, 1, 300), ([(-105);7;0;0;0;0;0;0;0;0;0], [], [], []), [0;(-105);44;0;0;0;0;0;0;0;0;0]);
  ((6, 0, 0), ([4;0;471598957;274643864;95265939;0;125120038;500000001;100000000;999999998;500000002], [], [], []), [0;4;0;471598957;274643864;95265939;0;125120038;500000001;100000000;999999998;500000002]);
  ((4, 1, 0), ([35;0;461685779;45;0;0;0;0;0;0;0], [(-84);29;70;0;0;0;0;0;0;0;0], [0;0;0;0;0;0;0;0;0;0;0], []), [0;0;29;20;0;0;0;0;0;0;0;0]);
  ((4, 1, 0), ([1;0;191737143;0;0;0;0;0;0;0;0], [16;(-82);0;0;0;0;0;0;0;0;0], [36;16;10;99338516;259432426;999999997;388668905;115180200;0;0;0], []), [(-1)]);
  ((5, 0, 0), ([9;20;0;532199830;0;500000001;0;0;0;0;0], [(-74);0;499999998;0;0;0;0;0;0;0;0], [], []), [0;1]);
  ((4, 1, 0), ([(-128);0;0;999999996;1;1;163404500;21034011;1000000;399;500000000], [9;0;999999999;0;0;0;0;0;0;0;0], [(-115);0;999999997;8000;0;0;0;0;0;0;0], []), [0;1;0;0;0;0;0;0;0;0;0;0]);
  ((4, 1, 0), ([12;0;506282927;12565856;1;0;0;0;0;0;0], [(-14);67;1;2;0;0;0;0;0;0;0], [24;0;646351304;500000000;723466916;0;0;0;0;0;0], []), [(-1)]);
  ((2, 1, 0), ([18;38;0;0;0;0;2;0;0;0;0], [(-92);39;100000;0;0;0;868065524;93463120;938133165;0;999999996], [18;0;0;499999999;0;0;0;0;0;0;0], []), [0;(-74);27;0;736131048;186926241;876266330;1;999999992;1;0;0]);
  ((5, 1, 0), ([(-119);0;576387991;0;0;0;0;0;0;0;0], [15;0;0;0;0;0;0;0;0;0;0], [], []), [0;(-1)]);
  ((11, 0, 0), ([18;9;499999998;483097134;499999998;0;0;0;0;0;0], [], [], []), [0;52;57;57;57;57;57;57;57;56;52;56;51;48;57;55;49;51;52]);
  ((3, 0, 4), ([0;0;95974691;904025309;90402531;0;0;0;0;0;0], [(-56);0;904025310;0;0;0;0;0;0;0;0], [36;26;500000000;457948789;999999998;593024900;496845149;10000000;384889652;999999997;499999999], []), [0;1;0;0;0;0;0;0;0;0;0;0]);
  ((4, 0, 0), ([18;0;0;999999998;0;0;0;0;0;0;0], [27;54;1;380058129;400000;268584830;761720846;1000000;999999998;49999999;0], [0;31;0;999999996;0;0;0;0;0;0;0], []), [0;17;54;999999981;778895548;992399992;896888229;527303920;980999985;37;49999998;0]);
  ((14, 1, 1000000000), ([27;22;1;0;646047718;2;999999999;999999999;299;0;0], [], [], []), [0;18;0;0;1;0;0;0;0;0;0;0]);
  ((4, 0, 0), ([27;10;0;0;0;0;0;0;0;0;0], [5;12;999999999;1000000;210174259;0;0;0;0;0;0], [5;0;0;0;0;0;0;0;0;0;0], []), [0;1;0;0;0;0;0;0;0;0;0;0]);
  ((11, 1, 0), ([(-110);57;0;0;0;0;0;0;142197262;2;0], [], [], []), [0;45;50]);
  ((9, 0, 0), ([55;6;999999999;0;0;0;999999996;132133145;70;899999999;0], [], [], []), [1;3]);
  ((3, 1, 50), ([27;7;70;3;637803297;100000;0;0;0;0;0], [96;27;1;0;0;0;0;0;0;0;0], [4;9;0;0;0;0;0;0;0;0;0], []), [(-1)]);
  ((0, 0, 0), ([68;5;0;0;0;0;0;0;0;0;500000000], [(-119);0;0;0;0;0;0;0;0;0;0], [9;3;999999997;59999;262187799;943136313;848383929;0;9;499999998;0], []), [0;68;5;0;0;0;0;0;0;0;0;500000000]);
  ((6, 0, (-26)), ([13;0;0;0;0;0;0;0;0;0;0], [], [], []), [0;1;0;0;0;0;0;0;0;0;0;0]);
  ((10, 0, 0), ([(-128);17;0;0;0;0;0;0;0;0;0], [], [], []), [0;1;0;2;0;0]);
  ((6, 1, 8), ([63;9;0;751866165;500000002;0;742444660;973785316;999999999;100000000;0], [], [], []), [0;63;8;0;751866165;500000002;0;742444660;973785316;999999999;100000000;0]);
  ((10, 0, 0), ([(-88);12;9;7;999999999;999999997;999999998;500000000;499999998;0;0], [], [], []), [0;1;5;2;9;7;999999999;999999997;999999998;500000000;499999998]);
  ((4, 1, 0), ([(-119);0;427913957;0;999999996;54648797;0;0;0;0;0], [22;19;1;0;0;0;0;0;0;0;0], [(-123);9;0;0;0;0;0;0;0;0;0], []), [0;0;19;0;0;0;0;0;0;0;0;0]);
  ((2, 1, 0), ([(-118);26;999999999;865784052;100;0;0;0;0;0;0], [36;4;0;0;0;0;0;0;0;0;0], [36;0;630102061;462600486;30000;946074154;499999998;10000000;385078012;100;820272796], []), [0;1;0;0;0;0;0;0;0;0;0;0]);
  ((5, 1, 0), ([(-99);9;100;324782906;999999999;186480555;300000;415588421;10000000;0;999999999], [(-101);6;0;0;0;0;0;0;0;0;0], [], []), [0;(-1)]);
  ((9, 1, 0), ([36;8;461698351;1;511096117;999999999;330894387;1000000;1000000;0;499999998], [], [], []), [1;3]);
  ((10, 1, 0), ([18;0;832759116;929879193;0;0;0;0;0;0;0], [], [], []), [0;0;2;0;832759116;929879193]);
  ((13, 1, 8049625458978243470), ([0;15;0;5;999999998;233802860;0;0;2;320379507;999999999], [], [], []), [0;27;0;978243470;49625458;8;0;0;0;0;0;0]);
  ((5, 1, 0), ([27;0;0;747773396;100;0;0;0;0;0;0], [0;17;0;0;100;500000000;502402372;257448006;500000001;2;20], [], []), [0;1]);
  ((4, 1, 0), ([1;0;0;835000000;805583;0;0;0;0;0;0], [18;22;268527945;0;0;0;0;0;0;0;0], [81;6;724510154;999999999;999999999;999999999;12712620;500000002;367394020;3;2], []), [0;1;0;0;0;0;0;0;0;0;0;0]);
  ((3, 1, 1), ([27;54;733236956;132148969;869435858;786172001;993308939;885936748;0;0;0], [59;12;499461017;0;999999999;0;0;0;0;0;0], [(-97);0;736808163;531408228;1;899810777;0;599999999;999999999;10000000;999999998], []), [0;0;36;222926820;879245689;885936749;0;0;0;0;0;0]);
  ((5, 0, 0), ([18;23;499999998;999999999;527890189;999999998;792654567;0;0;0;0], [31;27;1;240212640;1;0;999999999;957635730;955162564;499999999;0], [], []), [0;(-1)]);
  ((2, 1, 0), ([54;27;500000001;672397812;272415518;1;845779410;999999999;0;3;677919044], [13;9;299999;707781959;995836933;0;829401489;460517762;0;499999998;691113831], [(-56);9;0;100;2;2;362506303;2;367401492;999999998;10], []), [0;72;9;824241588;494138207;958736292;540094978;555103396;154463766;993441373;79070923;675096822]);
  ((5, 0, 0), ([(-119);9;0;0;0;0;0;0;0;0;0], [9;9;0;0;0;0;0;0;0;0;0], [], []), [0;(-1)]);
  ((4, 1, 0), ([(-94);0;999999997;999900002;500099997;500000001;0;0;0;0;0], [16;18;999999999;0;0;0;0;0;0;0;0], [18;35;500000002;0;286759506;161201011;619755808;999999997;999999999;100000000;499999998], []), [0;0;18;0;0;0;0;0;0;0;0;0]);
  ((4, 0, 0), ([(-116);3;440879376;0;300;0;0;0;0;0;0], [27;21;0;0;0;0;0;0;0;0;0], [35;37;326243207;999999999;60800373;999489157;499999999;405826776;0;9;499999999], []), [1;1;1;0;0;0;0;0;0;0;0;0;0]);
  ((3, 0, 1), ([60;18;0;681563530;0;677202929;999999999;285223296;500000001;10000000;170109646], [(-70);9;2;0;971696446;499999999;2;0;0;0;0], [9;0;2;0;0;0;0;0;0;0;0], []), [0;(-92);36;778967736;422984088;334905204;327627508;136205579;408291109;404770353;68043858;0]);
  ((9, 0, 0), ([(-128);51;0;0;0;0;0;0;0;0;0], [], [], []), [1;3]);
  ((1, 1, 0), ([8;15;79;999999999;6000;0;0;0;0;0;0], [27;7;2;750073985;10000000;18646710;825671861;905997963;889898155;796175136;999999996], [(-74);0;999999996;999999998;111946703;0;689345695;999999997;0;0;0], []), [0;(-101);15;999999921;2;750067984;10000000;18646710;0;0;0;0]);
  ((4, 1, 0), ([(-111);0;999999996;500000001;0;1000;0;499999999;289051116;999999996;100000], [19;0;1000000;741153913;6;0;0;0;0;0;0], [(-101);0;0;899999999;774490069;0;0;0;0;0;0], []), [0;(-111);0;999999996;500000001;0;0;0;0;0;0;0]);
  ((4, 1, 0), ([(-121);0;0;0;0;0;0;0;0;0;0], [(-53);18;999999999;875237757;500000001;700;0;0;0;0;0], [18;0;0;0;0;0;0;0;0;0;0], []), [(-1)]);
  ((3, 1, 100), ([(-47);0;500000002;0;0;0;0;0;0;0;0], [5;0;1;0;0;0;0;0;0;0;0], [19;47;0;0;0;0;0;0;0;0;0], []), [0;(-119);36;0;0;0;0;500000002;0;0;0;0]);
  ((3, 1, 20), ([(-105);23;0;0;944705616;0;800000000;47235280;0;0;0], [50;9;0;472352808;0;0;0;0;0;0;0], [3;110;507387658;671355162;0;0;0;0;0;0;0], []), [0;(-111);36;0;0;0;2;0;100000000;0;0;0]);
  ((6, 1, (-9223372036854775808)), ([(-101);0;838856323;999999999;30;0;0;0;0;0;0], [], [], []), [0;(-101);0;838856323;999999999;30;0;0;0;0;0;0]);
  ((3, 1, 1), ([53;27;999999996;0;0;0;0;0;0;0;0], [72;9;1;0;0;0;0;0;0;0;0], [9;0;999999998;0;0;0;0;0;0;0;0], []), [0;0;36;0;0;999999996;0;0;0;0;0;0]);
  ((3, 1, 40), ([5;36;279542786;0;77988125;731192538;70000;19999999;577953545;103626278;999999999], [63;16;815624709;156650166;506114476;791712301;0;0;336674155;657159184;0], [(-121);9;664127286;999999999;0;0;0;0;0;0;0], []), [0;0;36;0;0;0;0;0;0;0;0;0]);
  ((4, 0, 0), ([61;0;100000001;802869763;626434880;500000000;0;0;0;0;0], [62;12;500000001;0;0;0;0;0;0;0;0], [72;66;428708279;5999999;60000000;523285671;511578399;619108158;499999998;500000000;10], []), [0;0;12;4;0;0;0;0;0;0;0;0]);
  ((12, 0, 1), ([63;7;699999999;11424438;0;499999998;500000000;627446489;426831384;0;0], [], [0;0;0;0;0;0;0;0;0;0;0], [45;53;57;57;49;53;48;52;56;52;46;49;53;55;56;50;48;51;57;50;48;69;45;48;57]), [0;(-128);19;0;157820392;599150484;0;0;0;0;0;0]);
  ((4, 0, 0), ([0;16;587776985;17857638;238086224;1143;0;0;0;0;0], [18;1;911266152;100000;1999;0;0;0;0;0;0], [9;14;0;0;0;0;0;0;0;0;0], []), [0;0;16;587776985;17857638;0;0;0;0;0;0;0]);
  ((4, 1, 0), ([(-92);27;1;990000000;9999999;999999201;798;0;0;0;0], [(-120);9;999999999;0;0;0;0;0;0;0;0], [9;23;0;499999998;0;999999999;0;500000002;918546221;999999999;999999999], []), [0;(-128);27;1;990000000;9999999;0;0;0;0;0;0]);
  ((0, 1, 0), ([(-127);1;999999999;999999999;0;999999996;325024173;800000;2;999999997;100], [(-120);21;649820774;999999999;0;0;0;0;0;0;0], [(-110);13;10000000;10000;0;409127722;0;999999999;986263179;0;999999999], []), [0;(-119);21;649820774;999999999;999999999;999999999;0;0;0;0;0]);
  ((14, 1, 12850330338642201735), ([27;53;224683990;10;10005402;0;999999999;0;999999999;490696884;999999996], [], [], []), [0;27;0;642201735;850330338;12;0;0;0;0;0;0]);
  ((2, 0, 0), ([(-80);8;0;0;0;0;0;0;995007537;0;0], [50;0;999999996;800;500000002;499999998;999999999;0;500000000;999999999;100], [9;0;666268713;0;0;0;0;0;0;0;0], []), [1;2;1;0;0;0;0;0;0;0;0;0;0]);
  ((1, 1, 0), ([(-128);0;500000002;69;500;299800456;999999999;10000000;23506959;838843802;60323631], [81;0;0;0;0;0;0;0;0;999999999;999999999], [(-83);0;0;0;204279636;125245266;376747883;0;0;0;0], []), [(-1)]);
  ((4, 1, 0), ([0;0;999999999;999999999;179423807;320576191;499960001;39999;0;0;0], [(-119);72;0;0;999999999;0;0;0;0;0;0], [9;15;999999999;0;0;0;0;0;0;0;0], []), [0;1;0;0;0;0;0;0;0;0;0;0]);
  ((3, 0, 40), ([(-92);0;0;0;999999999;832476669;0;0;0;0;0], [(-101);0;699972975;3;0;0;0;0;0;0;0], [(-120);35;200;0;0;0;0;0;0;0;0], []), [0;27;36;183583827;19140768;608701973;722444114;122748308;972705057;224995337;0;0]);
  ((4, 0, 0), ([33;0;300;0;654113237;10000;264718883;417191092;715652825;935947418;799999999], [9;24;301559778;0;957807041;999999999;0;0;0;0;0], [(-128);5;0;0;0;0;0;0;0;0;0], []), [0;9;24;671555780;218102376;15287040;793717942;0;0;0;0;0]);
  ((3, 1, 18446744073709551615), ([(-120);69;500000000;0;719455017;10000000;688553072;1000000;30;0;80000000], [18;0;339476232;239998431;0;0;0;0;0;0;0], [9;(-52);0;0;0;0;0;0;0;0;0], []), [0;(-128);36;364882355;42745464;333335512;0;0;0;0;0;0]);
  ((3, 1, 18446744073709551615), ([9;7;100000;999999999;0;999999999;999999996;999999999;479602197;397079851;100000], [18;14;0;0;0;0;0;0;0;0;0], [6;0;93563146;0;999999999;0;0;999999998;467658268;6000000;19999999], []), [1;1;1;0;0;0;0;0;0;0;0;0;0]);
  ((4, 0, 0), ([(-108);0;999999999;400200599;366161252;471114412;48;0;0;0;0], [27;22;0;484002006;0;0;0;0;0;0;0], [0;17;0;0;0;0;0;0;0;0;0], []), [0;(-128);22;0;226290880;0;0;0;0;0;0;0]);
  ((6, 1, 15), ([(-83);0;961708439;499999998;352608591;1;500000000;499999999;406798687;649530822;999999999], [], [], []), [0;(-83);15;961708439;499999998;961708439;499999998;352608591;1;500000000;649530822;999999999]);
  ((2, 1, 0), ([(-95);0;0;0;0;0;0;0;0;0;0], [18;0;499999;(-1);0;999999998;999999999;746282625;2;500000000;0], [45;18;0;431606193;0;0;999999997;100;0;0;0], []), [0;1;0;0;0;0;0;0;0;0;0;0]);
  ((5, 1, 0), ([27;18;757699957;499999999;0;389704819;1000000;7999999;677919444;999999999;500000002], [(-101);18;757699957;499999999;0;389704819;1000000;7999999;677919444;999999999;500000002], [], []), [0;1]);
  ((0, 1, 0), ([17;5;999999998;500000001;100000000;100000000;700;471857771;1;329263247;3], [(-119);0;272968463;0;0;0;0;0;0;0;0], [64;9;0;0;0;0;0;0;0;0;0], []), [0;18;5;999999998;227031538;100000000;0;0;0;0;0;0]);
  ((7, 0, 0), ([9;9;722530041;93576044;0;0;0;0;0;0;0], [], [18;41;557982499;190484262;3;999999999;0;393179334;0;6000;0], []), [0;9;0;93576045;0;0;0;0;0;0;0;0]);
  ((9, 1, 0), ([27;0;0;999999996;1;499999998;658301852;500000002;5;0;132868370], [], [], []), [0;1999999996000000000]);
  ((3, 0, 4), ([28;29;999999999;999999999;499999997;2;0;0;0;0;0], [45;8;499999998;2;0;0;0;0;0;0;0], [45;21;104336727;2;965981747;0;600000;800000;0;0;0], []), [(-1)]);
  ((3, 1, 9), ([(-121);0;499999998;2;676806142;0;0;0;0;0;0], [9;19;1;0;0;0;0;0;0;0;0], [80;18;937235516;999999999;999999999;792534958;757206071;0;0;0;0], []), [0;(-92);36;0;0;0;0;0;0;0;499999998;0]);
  ((2, 1, 0), ([35;0;465395029;999999999;700000;0;0;0;0;0;0], [36;0;222329909;316989282;734212225;978668201;0;0;0;0;0], [9;(-101);0;0;0;0;0;0;0;0;0], []), [0;72;0;446622361;970220503;735195387;207804236;768733232;719882149;685068;0;0]);
  ((2, 0, 0), ([82;0;697646776;0;949968707;602916349;3;256196452;379015643;51389252;0], [32;18;296476530;911076887;841855262;0;0;0;0;0;0], [0;18;0;0;0;0;0;0;0;0;0], []), [1;2;1;0;0;0;0;0;0;0;0;0;0]);
  ((2, 0, 0), ([28;9;0;0;0;0;0;0;0;0;0], [(-119);0;0;0;0;0;0;0;0;0;0], [63;9;0;0;0;0;0;0;0;999999997;0], []), [0;1;0;0;0;0;0;0;0;0;0;0]);
  ((0, 1, 0), ([63;8;0;0;0;0;0;0;0;0;0], [(-119);0;206475184;499999998;999999997;0;0;584404766;999999996;999999998;500000000], [(-74);18;0;0;0;0;0;0;0;0;0], []), [0;(-119);0;206475184;499999998;999999997;0;0;584404766;999999996;999999998;500000000]);
  ((3, 1, 18446744073709551615), ([36;18;317112643;0;0;0;0;0;0;0;0], [45;26;1;0;0;0;0;0;0;0;0], [4;63;0;0;0;0;220635636;999999999;499999999;599;0], []), [0;18;36;0;0;0;0;0;317112643;0;0;0]);
  ((2, 1, 0), ([54;0;0;0;0;0;0;0;0;0;0], [36;18;0;0;0;0;0;0;0;0;0], [63;7;0;0;0;0;0;0;0;999999999;0], []), [0;1;0;0;0;0;0;0;0;0;0;0]);
  ((4, 1, 0), ([72;6;0;0;0;0;0;0;0;0;0], [18;0;0;2;0;0;0;0;0;0;0], [(-119);11;473893315;63015901;587853524;0;0;0;0;0;0], []), [0;1;0;0;0;0;0;0;0;0;0;0]);
  ((4, 0, 0), ([9;(-87);5;0;0;0;0;0;0;0;0], [12;1;262150210;926259252;60277114;0;0;0;0;0;0], [(-101);54;999999999;93796798;499999998;500000000;999999998;176452501;500000000;0;0], []), [(-1)]);
  ((3, 1, 9), ([36;0;999999999;500000002;377076118;0;0;0;0;0;0], [(-101);0;0;999999999;14284978;0;0;0;0;0;0], [36;9;0;0;0;0;0;0;0;0;0], []), [0;(-126);9;396686932;26;0;0;0;0;0;0;0]);
  ((3, 0, 9223372036854775808), ([36;2;334910357;1;351991167;500000000;999999996;0;0;0;0], [(-86);0;999999998;2;10000;0;0;0;0;0;0], [126;45;0;819911752;749997684;0;49999;1;1;0;0], []), [(-1)]);
  ((1, 0, 0), ([(-52);19;0;0;0;0;999999999;258573948;0;999999999;0], [(-101);3;794863320;500000002;3;994082186;0;0;0;0;0], [21;1;500000002;2;300000000;200926203;680983612;3;376372850;0;100000], []), [(-1)]);
  ((12, 1, 0), ([52;4;0;499999999;0;500000000;664567905;999999999;0;500000002;3], [], [(-83);26;0;100000;500000001;3;7520043;3;0;0;0], [45;57;54;52;54;53;57;55;52;57;56;53;56;48;54;55;49;49;56;49;50;57;57;56;57;49;48]), [0;(-102);0;812998910;985806711;96465974;3;7520043;3;0;0;0]);
  ((4, 0, 0), ([3;0;475630186;997683763;490494985;4504;500000009;22;0;0;0], [9;26;0;0;0;9;0;0;0;0;0], [(-119);0;0;0;0;0;0;0;0;0;0], []), [0;1;26;0;0;0;4;0;0;0;0;0]);
  ((3, 0, 4), ([(-80);18;300000000;0;0;1;0;500000001;345519117;999999998;999999999], [(-94);18;0;0;999999999;0;19024065;500000001;0;0;0], [18;17;0;0;0;0;0;0;0;0;0], []), [0;19;36;376997096;640495660;117869589;51103665;614941990;999999992;1;0;0]);
  ((11, 0, (-5)), ([27;0;886254435;3;675622638;0;0;0;0;0;0], [], [], []), [0;54;55;53;54;50;50;54;51;56;48;48;48;48;48;48;48;48;51;56;56;54;50;53;52;52;51;53]);
  ((10, 0, 0), ([3;1;0;0;0;0;0;0;0;0;0], [], [], []), [0;0;1;1;0;0]);
  ((3, 1, 9223372036854775808), ([9;23;319689291;219747822;0;0;0;0;0;0;0], [18;12;0;0;0;0;0;0;0;0;0], [15;24;0;0;0;0;0;0;0;0;0], []), [1;1;1;0;0;0;0;0;0;0;0;0;0]);
  ((9, 0, 0), ([(-119);9;0;0;0;0;0;0;0;0;0], [], [], []), [1;3]);
  ((3, 1, 100), ([12;35;202788632;537362636;962637364;46263736;0;0;0;0;0], [9;9;462637365;0;0;0;0;0;0;0;0], [0;81;999999999;0;999999999;999999999;0;0;0;0;0], []), [(-1)]);
  ((12, 0, 0), ([36;0;641594982;10000;835139882;704138752;0;0;0;0;0], [], [(-47);27;499999998;499999999;69999999;246389974;497099153;591632932;0;787445780;0], [48;57;57;48;46;52;51;49;52;48;49;50;55;57;51;54;48;54;54;57;49;51;55;57;57;57;57;50;48;53;53;48;55;52;51;57;53;48;54;51;69;45;53]), [0;0;40;506300000;205507439;691379999;12793606;9904314;591632932;0;787445780;0]);
  ((13, 0, 1717612233), ([54;26;10000;585840806;0;10;999999996;999999999;999999996;993971853;300576045], [], [], []), [0;18;0;717612233;1;0;0;0;0;0;0;0]);
  ((12, 1, 0), ([0;4;334318258;999999999;999999999;9;680940605;0;1;0;3], [], [(-125);0;0;0;0;0;0;0;0;0;0], [45;50;48;56;52;55;57]), [0;(-122);0;208479;0;0;0;0;0;0;0;0]);
  ((1, 0, 0), ([(-101);8;0;0;0;0;0;0;0;0;0], [(-104);18;500000000;0;0;1;999999999;0;0;0;0], [24;51;314709866;500000002;29;2;999999999;0;246496000;2;399444132], []), [0;24;18;500000000;0;0;1;999999999;0;0;0;0]);
  ((3, 1, 100), ([83;0;255732020;556337496;417415487;999999997;0;0;0;0;0], [18;8;999999999;981512807;300;0;0;0;0;0;0], [16;9;0;0;0;200000000;0;500000001;370237625;999999999;309340727], []), [(-1)]);
  ((7, 0, 0), ([72;0;2;9000;4000;1999999;999999996;999999999;676357364;999999998;0], [], [27;49;100;735504548;100000;1;0;0;0;0;0], []), [0;72;0;2;9000;4000;1999999;999999996;999999999;676357364;999999998;0]);
  ((4, 0, 0), ([63;0;422208456;790053690;212304436;261274768;998999998;1000000;0;0;0], [19;3;599999999;0;2;999999999;0;0;0;0;0], [27;0;999999997;388953060;2;0;0;0;0;0;0], []), [0;27;3;259274765;866643596;672504161;470979202;0;0;0;0;0]);
  ((1, 0, 0), ([(-128);4;10000;999999998;999999999;333030534;611611603;500000001;999999999;299999;1000000005], [(-94);0;100000000;999999999;269069161;3;0;0;0;0;0], [(-92);9;0;0;999999999;0;0;937965731;803722209;0;499999998], []), [0;36;4;999990000;99999999;999999999;269069161;3;0;0;0;0]);
  ((4, 0, 0), ([63;6;824296205;500000001;0;999999999;980480720;300000;0;0;0], [36;0;27050012;506744614;4132201;3;0;0;0;0;0], [(-83);15;966467429;999999999;173560348;1000;2;41461980;812104097;0;0], []), [0;28;6;824296205;515627465;810806452;432665962;2;0;0;0;0]);
  ((2, 0, 0), ([2;0;0;0;0;0;0;0;0;0;0], [81;18;283492174;489726519;1000;0;0;0;0;0;0], [19;8;1000000;244854471;0;615102329;0;0;0;0;0], []), [0;1;0;0;0;0;0;0;0;0;0;0]);
  ((14, 0, 9744570911410254510), ([2;19;0;0;999999999;379294910;0;0;0;0;0], [], [], []), [0;27;0;410254510;744570911;9;0;0;0;0;0;0]);
  ((7, 0, (-17)), ([65;6;0;0;0;0;0;0;0;0;500000002], [], [62;73;999999999;1000;999999999;500000002;599999999;350920543;0;402611710;999999996], []), [0;72;0;0;0;0;0;0;0;0;500000002;0]);
  ((9, 0, 0), ([(-121);12;0;499999998;0;0;0;0;0;0;0], [], [], []), [1;3]);
  ((2, 1, 0), ([(-110);0;486444052;805945242;3;7999999;0;999999996;999999999;3;221788632], [(-119);7;0;0;0;0;0;0;0;0;0], [38;0;100000;31410091;2;999999999;499999999;500000000;838978725;999999997;89999], []), [0;1;0;0;0;0;0;0;0;0;0;0]);
  ((13, 0, (-9107349705274948928)), ([(-123);0;615293572;13951269;3;1;280601201;118044647;3;0;602741805], [], [], []), [0;(-101);0;274948928;107349705;9;0;0;0;0;0;0]);
  ((4, 1, 0), ([9;0;10;638366892;999999996;999999999;645048286;0;999999999;999999999;55102298], [(-124);0;0;0;0;0;0;0;0;0;0], [81;0;115827462;847103886;0;999999998;0;10000;500000002;261327455;210739442], []), [1;1;1;0;0;0;0;0;0;0;0;0;0]);
  ((4, 0, 0), ([54;4;10;0;301637398;0;0;0;0;0;0], [81;0;1;0;0;0;0;0;0;0;0], [36;9;0;0;0;0;0;0;0;0;0], []), [0;0;4;10;0;0;0;0;0;0;0;0]);
  ((4, 1, 0), ([(-95);19;0;0;0;0;0;0;0;0;0], [1;7;0;721690715;500000001;0;500000000;10;0;534079334;650825293], [54;45;0;0;212443836;499999998;1000000;85617944;999999999;389737550;700], []), [0;1;0;0;0;0;0;0;0;0;0;0]);
  ((11, 0, 0), ([(-74);9;0;499999999;999999997;999999999;195740120;9999999;0;0;0], [], [], []), [0;45;57;57;57;57;57;57;57;49;57;53;55;52;48;49;50;48;57;57;57;57;57;57;57;57;57;57;57;57;57;57;57;57;57;55;52;57;57;57;57;57;57;57;57]);
  ((6, 1, 40), ([72;7;2;10000;0;0;999999996;0;3;10;0], [], [], []), [(-1)]);
  ((3, 0, 9), ([27;0;10;999999999;100000000;589476191;1;999999999;499999998;500000002;499999998], [18;0;0;0;0;0;0;0;0;0;0], [(-120);16;999999999;999999996;0;89592573;989461225;0;2;600000000;102427270], []), [1;1;1;0;0;0;0;0;0;0;0;0;0]);
  ((4, 1, 0), ([0;20;222853603;999999998;0;0;0;0;0;0;0], [(-108);7;1;0;755026900;881876870;0;0;0;0;0], [(-110);0;0;0;0;0;0;0;0;0;0], []), [0;0;20;222853603;999999998;0;0;0;0;0;0;0]);
  ((4, 1, 0), ([36;0;801696986;170379173;1;0;0;0;0;0;0], [8;0;585189587;0;0;0;0;0;0;0;0], [28;18;500000001;0;10;500000001;757881298;500000002;0;0;0], []), [0;9;0;386886573;0;0;0;0;0;0;0;0]);
  ((10, 1, 0), ([36;0;0;0;0;0;0;0;0;0;0], [], [], []), [0;0;4;0;0;0;0;0]);
  ((5, 1, 0), ([50;0;499999999;824309479;900;197306580;0;499999999;943216670;0;100000], [(-78);0;499999999;824309479;900;197306580;0;499999999;943216670;0;100000], [], []), [0;1]);
  ((4, 0, 0), ([32;0;0;823054652;960293635;474288556;0;0;0;0;0], [(-115);0;0;2;0;0;0;0;0;0;0], [27;0;2;0;699191757;0;0;0;0;0;0], []), [0;0;0;0;0;0;0;0;0;0;0;0]);
  ((5, 0, 0), ([(-119);0;0;0;0;0;0;0;0;0;0], [(-120);9;674866384;0;0;0;0;0;0;0;0], [], []), [0;1]);
  ((0, 1, 0), ([(-75);0;0;0;0;0;0;0;0;0;0], [61;13;1;612229248;0;1;772211906;999999999;0;445417301;100000000], [16;0;0;0;0;0;0;0;0;0;0], []), [0;61;13;1;612229248;0;1;772211906;999999999;0;445417301;100000000]);
  ((3, 0, 0), ([(-118);0;0;100000;0;0;0;0;0;0;0], [(-118);1;4000;999999999;0;0;0;0;0;0;0], [28;19;572879071;265806612;999999996;0;0;0;0;0;0], []), [0;6;9;99999;100000;0;0;0;0;0;0;0]);
  ((13, 1, 351045137899997364), ([17;7;384238263;799;2;499999998;500000000;613987177;999999999;998664532;818269948], [], [], []), [0;18;0;899997364;351045137;0;0;0;0;0;0;0]);
  ((3, 0, 9), ([36;0;999999999;538592085;42337502;0;0;0;0;0;0], [13;9;103100031;0;0;0;0;0;0;0;0], [4;0;0;0;0;0;0;0;0;0;0], []), [0;26;18;854142245;300681868;999999990;999999999;410644905;0;0;0;0]);
  ((3, 1, 100), ([45;27;0;0;0;0;0;0;500000000;93543267;0], [31;6;500000002;500000002;799959769;100;0;(-2147483648);100000000;999999999;0], [17;60;0;0;0;0;0;0;0;0;0], []), [(-1)]);
  ((4, 1, 0), ([18;48;574415026;691317878;905068609;285051779;310804877;316899078;2099998;0;0], [18;16;760626111;9;439899692;699999;0;0;0;0;0], [(-128);9;490349069;0;0;0;0;0;0;0;0], []), [0;18;48;574415026;691317878;905068609;285051779;310804877;316899078;2099998;0;0]);
  ((12, 0, 0), ([(-99);9;0;956617715;467666013;40;566128544;0;0;0;0], [], [45;31;100000;499999998;215933335;996634558;999999999;891366698;499999999;999999999;7999], [54;54;55]), [0;3;0;667;499999998;215933335;996634558;999999999;891366698;499999999;999999999;7999]);
  ((4, 0, 0), ([(-92);36;0;0;0;0;39;0;6;100;0], [80;36;30;3;0;0;0;0;0;0;0], [2;19;0;0;0;0;0;0;0;0;0], []), [(-1)]);
  ((3, 0, 40), ([18;1;545684377;0;0;0;0;0;0;0;0], [0;8;0;0;0;0;0;0;0;0;0], [24;21;631772330;491618597;999999998;999999997;103930927;999999999;999999999;100000000;0], []), [1;1;1;0;0;0;0;0;0;0;0;0;0]);
  ((7, 1, 27), ([22;0;233554286;3;731390677;0;0;0;0;0;0], [], [18;5;0;0;0;0;0;0;0;0;0], []), [0;22;27;0;0;0;233554286;3;731390677;0;0;0]);
  ((3, 1, 4), ([14;8;244820302;17092452;0;0;0;0;0;0;0], [1;13;84130766;10000000;665190137;0;0;0;0;0;0], [45;66;0;0;0;0;999999999;682834122;0;912683364;0], []), [0;0;27;869462242;815628133;25695588;0;0;0;0;0;0]);
  ((4, 0, 0), ([12;18;0;0;0;540842728;0;0;0;0;0], [(-128);0;0;0;0;0;0;0;0;0;0], [81;0;0;0;0;0;0;183052664;3;370619318;999999999], []), [1;1;1;0;0;0;0;0;0;0;0;0;0]);
  ((3, 1, 9), ([17;9;1;0;552378710;499999999;0;0;0;0;0], [0;7;1;0;0;0;0;0;0;0;0], [(-74);0;502940272;10;999999999;322987903;813976093;99999;0;0;0], []), [0;27;27;0;0;0;1;0;552378710;0;0;0]);
  ((4, 0, 0), ([27;0;979999999;962833221;468667112;999999995;3;0;0;0;0], [15;0;999999999;3;0;0;0;0;0;0;0], [(-101);0;0;377167399;95086543;0;0;0;0;0;0], []), [0;9;0;249999999;0;0;0;0;0;0;0;0]);
  ((4, 0, 0), ([(-92);0;740493318;0;7999;456840174;0;0;0;0;0], [(-101);4;2;1000;10000;0;0;0;0;0;0], [18;4;483464223;999999999;999999999;0;19;380290558;0;0;0], []), [0;(-115);4;203679106;545255453;6234;0;0;0;0;0;0]);
  ((3, 1, 286), ([9;61;313786935;999999999;1000000;0;999999997;0;0;175496934;1000000], [79;0;8;2;499999999;626904589;8;999999999;999999999;0;0], [54;25;399;999999996;1000000;0;500000001;10;500000001;100000000;324095622], []), [0;0;36;0;0;0;0;0;0;0;0;0]);
  ((2, 0, 0), ([55;12;355982356;753174075;10000;622723357;588347781;636461741;485103133;830995068;999999998], [47;20;0;0;0;999999999;0;775337078;499999998;999999999;799999999], [18;0;0;0;0;0;0;0;0;0;0], []), [1;2;1;0;0;0;0;0;0;0;0;0;0]);
  ((12, 0, 0), ([19;0;999999999;942708035;999999996;0;0;0;0;0;0], [], [58;18;500000001;69;724873254;0;0;0;0;0;0], [57;48;46;52;52;56;50;55;52;55;57;57;55;53;52;50;50;57;48;48;57;57;50;48;48;53;50;53;57;48;49;53;56;51;101;45]), [1;0;58;18;500000001;69;724873254;0;0;0;0;0;0]);
  ((4, 0, 0), ([76;0;499999999;500000002;0;0;0;0;0;0;0], [18;9;1;0;0;0;0;0;0;0;0], [(-96);0;500000002;500000001;0;999999999;0;0;0;0;0], []), [0;0;9;0;0;0;0;0;0;0;0;0]);
  ((0, 1, 0), ([(-101);0;30000000;999999999;515353919;0;0;0;0;0;0], [21;24;69779;0;73941124;0;0;0;0;0;0], [(-110);20;10301106;581671287;0;209385135;500000002;0;0;0;0], []), [0;(-101);24;999930221;999999999;926058875;29999999;999999999;515353919;0;0;0]);
  ((6, 0, 0), ([(-100);0;999999999;499999999;500000000;999999999;0;0;0;0;0], [], [], []), [0;(-100);0;999999999;499999999;500000000;999999999;0;0;0;0;0]);
  ((12, 0, 0), ([(-110);9;499999999;999999996;999999999;0;0;0;0;0;0], [], [10;9;778652269;999999996;76898537;766087915;0;0;500000000;792865951;499999999], [45;48;52;48;57;57;49;48;54;57;51;56;48;48;57;48;57;57;57;48;56;54;53;48;51;57;49;57;48;51;49;48;57;55;56;57;48;52;53;51;46;57;101;48;48]), [0;(-89);1;900000000;97890453;503919031;90999086;991069380;40;500000000;792865951;499999999]);
  ((11, 0, (-5)), ([27;9;0;0;0;0;0;0;0;0;0], [], [], []), [0;48;46;48;48;48;48;48;48;48;48;48]);
  ((7, 0, 300), ([9;0;29;0;0;0;0;0;0;0;0], [], [54;70;0;0;0;0;0;0;0;0;0], []), [0;9;44;0;0;0;0;0;29;0;0;0]);
  ((14, 1, 18446744073709551615), ([9;20;0;0;0;0;0;0;0;0;0], [], [], []), [0;27;0;709551615;446744073;18;0;0;0;0;0;0]);
  ((12, 0, 1), ([(-119);0;677525971;0;0;0;0;0;0;0;0], [], [9;6;780533673;241028577;77531276;0;500000001;500000000;999999997;0;2], [45;57;48;48;52;49;54;57;56;53;48;48;69;43;48;48;52;56;56]), [1;0;1;0;0;0;0;0;0;0;0;0;0]);
  ((10, 1, 0), ([(-89);13;0;0;0;0;999999999;499999;34873498;0;0], [], [], []), [0;1;5;2;0;0;0;0;999999999;499999;34873498]);
  ((3, 0, 40), ([81;0;155341870;172329064;0;0;0;0;0;0;0], [111;4;499999999;0;0;0;0;0;0;0;0], [9;9;999999997;1000;0;0;0;0;0;0;0], []), [(-1)]);
  ((14, 1, 1000000000000000000), ([(-114);26;0;0;0;0;0;0;0;0;0], [], [], []), [0;27;0;0;0;1;0;0;0;0;0;0]);
  ((3, 0, 9), ([56;9;0;482149659;200000;0;999999997;0;0;0;0], [27;0;699999;2;99999;0;0;0;0;0;0], [52;0;890339487;1;926418101;999999999;247417248;499406595;980253092;583543969;794428563], []), [0;14;18;211230738;509923101;99970999;10000;0;0;0;0;0]);
  ((3, 1, 1), ([19;0;1000;1000000;90000;0;0;0;0;0;0], [117;0;999999999;100000;0;0;0;0;0;0;0], [36;9;999999999;137863211;348174448;984582392;538598148;0;0;0;0], []), [(-1)]);
  ((14, 1, 0), ([27;6;403591175;999999998;2;364322456;0;0;0;0;0], [], [], []), [0;0;0;0;0;0;0;0;0;0;0;0]);
  ((8, 0, 0), ([47;20;0;0;0;0;0;0;0;0;847376487], [], [], []), [1;3]);
  ((9, 1, 0), ([16;9;949950179;0;999999999;0;0;0;0;0;0], [], [], []), [0;999999999000000001]);
  ((2, 0, 0), ([9;9;0;1000;0;499999998;0;684215277;676707118;0;0], [8;9;745143073;10;0;0;0;0;0;0;0], [63;13;0;0;546085269;999999999;3;0;6000000;219873641;999999999], []), [0;18;18;0;143073000;10745;0;0;0;0;0;0]);
  ((2, 1, 0), ([27;21;500000001;172205430;223261803;0;0;0;0;0;0], [3;6;0;0;0;0;0;0;0;0;0], [1;9;0;999999999;0;0;0;0;0;0;0], []), [0;1;0;0;0;0;0;0;0;0;0;0]);
  ((4, 1, 0), ([(-101);3;398198226;999999996;500000002;999999999;0;0;0;0;0], [18;0;1;0;0;0;0;0;0;0;0], [27;47;999999996;999999997;889257211;499999999;279506345;999999996;1000000;0;0], []), [0;(-128);3;398198226;0;0;0;0;0;0;0;0]);
  ((2, 1, 0), ([51;0;0;0;0;0;0;0;0;0;0], [18;11;917066399;0;0;3;0;0;0;0;0], [(-74);9;935591059;0;999999998;499999998;10000000;499999999;930379110;342053052;529577012], []), [0;1;0;0;0;0;0;0;0;0;0;0]);
  ((1, 1, 0), ([(-47);0;899999;10;0;0;0;0;0;0;0], [30;0;499999999;1;10000000;262583823;0;0;0;0;0], [32;2;0;0;0;0;0;0;0;0;0], []), [(-1)]);
  ((0, 0, 0), ([26;0;831643232;2;0;0;0;0;0;0;0], [27;0;0;0;0;0;0;0;0;0;0], [9;4;518396265;0;0;0;0;0;0;0;0], []), [0;26;0;831643232;2;0;0;0;0;0;0;0]);
  ((2, 0, 0), ([9;36;10000000;999999999;0;829024085;499999998;(-1);993333833;2000;150394143], [54;0;922635064;999999998;999999996;10000000;499999999;500000001;0;0;0], [36;0;0;390820648;0;0;0;0;0;0;0], []), [0;63;18;892635064;731516441;241668387;499245280;184024085;659266154;248536129;164512040;250000000]);
  ((2, 0, 0), ([(-121);15;0;128223951;429011315;0;0;0;0;0;0], [27;0;199999;325262588;2;0;999999998;10000000;999999999;155521965;1], [54;8;999999999;999999999;500000000;999999997;146293580;536705046;57098582;0;0], []), [0;(-92);15;0;661976049;979859517;896423377;997563960;0;0;0;0]);
  ((10, 0, 0), ([69;4;0;71056334;839656184;0;999999999;281267128;903325782;1;10000], [], [], []), [0;0;8;1;0;71056334;839656184;0;999999999;281267128;903325782;1;10000]);
  ((4, 0, 0), ([0;0;513441049;500049999;1;0;0;0;0;0;0], [25;27;500000000;0;0;0;0;0;0;0;0], [63;0;0;0;0;0;0;0;0;0;0], []), [0;1;0;0;0;0;0;0;0;0;0;0]);
  ((1, 0, 0), ([27;5;2;0;999999999;1000000;0;0;0;0;0], [81;0;999999997;100;318550389;574260210;999999999;1999;161382850;499999999;10], [(-119);18;0;0;0;0;0;0;0;0;0], []), [(-1)]);
  ((9, 1, 0), ([(-56);9;0;0;0;0;0;0;0;0;0], [], [], []), [1;3]);
  ((2, 1, 0), ([(-81);23;439301068;0;0;81142226;39999;0;0;0;0], [13;10;0;0;0;0;0;0;0;0;0], [27;0;0;0;0;0;0;0;0;0;0], []), [0;1;0;0;0;0;0;0;0;0;0;0]);
  ((5, 1, 0), ([(-92);0;100000;500000002;800654551;843364233;1;0;162254920;0;0], [36;0;600000;341907059;0;0;801797008;67086987;999999997;999999999;1000], [], []), [0;(-1)]);
  ((4, 1, 0), ([18;(-69);0;3;999999996;0;0;0;0;0;0], [24;0;999999997;0;0;0;0;0;0;0;0], [(-12);11;4;0;149861168;999999999;0;0;0;0;0], []), [(-1)]);
  ((2, 0, 0), ([(-92);0;999999998;999999999;499999998;1;0;0;0;0;0], [27;9;0;999999999;1;7;0;0;0;0;0], [9;1;697704146;999999999;500000001;100;2;399999;10;10;0], []), [0;(-65);9;0;2;999999996;499999986;999999996;499999995;10;0;0]);
  ((3, 1, 40), ([9;49;235085785;675316061;849460008;634484;0;0;0;0;0], [36;36;78361928;899999;0;0;0;0;0;0;0], [9;18;0;0;100000;0;0;0;0;0;0], []), [(-1)]);
  ((9, 1, 0), ([(-101);0;0;0;0;0;0;0;0;0;0], [], [], []), [1;3]);
  ((11, 1, 0), ([45;35;10000;420118042;1;999999999;500000000;324047372;999999999;0;0], [], [], []), [0;57;57;57;57;57;57;57;57;57;51;50;52;48;52;55;51;55;50;53;48;48;48;48;48;48;48;48]);
  ((11, 1, 32), ([62;0;0;0;0;0;0;0;0;0;0], [], [], []), [0;48;46;48;48;48;48;48;48;48;48;48;48;48;48;48;48;48;48;48;48;48;48;48;48;48;48;48;48;48;48;48;48;48;48]);
  ((9, 1, 0), ([18;(-57);0;0;0;0;0;0;0;0;0], [], [], []), [(-1)]);
  ((4, 0, 0), ([9;26;0;0;0;0;0;0;0;0;0], [6;14;1;0;0;0;0;0;0;0;0], [7;2;0;999999997;0;0;0;0;0;0;0], []), [0;1;0;0;0;0;0;0;0;0;0;0]);
  ((4, 0, 0), ([9;0;999999999;254809819;29960417;735691005;204054312;260072609;1011529;0;0], [(-108);18;0;30;12115765;9999999;0;0;0;0;0], [(-110);0;0;413951755;0;0;0;0;0;0;0], []), [0;9;18;0;0;999999999;0;0;0;0;0;0]);
  ((1, 1, 0), ([0;29;0;0;0;3;0;0;0;0;0], [(-101);9;412565858;0;4999;0;0;0;0;0;0], [10;1;999999999;999999999;0;999999999;0;0;0;0;0], []), [0;18;29;0;0;0;412565861;0;4999;0;0;0]);
  ((13, 0, 9223372036854775807), ([(-117);7;0;0;878496494;0;0;0;0;0;0], [], [], []), [0;27;0;854775807;223372036;9;0;0;0;0;0;0]);
  ((6, 1, 0), ([(-56);0;0;999999999;1;999999999;825880374;0;0;43585341;0], [], [], []), [0;(-56);0;0;999999999;1;999999999;825880374;0;0;43585341;0]);
  ((5, 0, 0), ([(-101);5;0;0;0;500000002;0;0;0;0;0], [27;5;0;0;0;500000002;0;0;0;0;0], [], []), [0;(-1)]);
  ((14, 0, 1000000000), ([9;23;1;100000000;3;905940514;0;0;0;0;0], [], [], []), [0;18;0;0;1;0;0;0;0;0;0;0]);
  ((2, 1, 0), ([1;0;802978642;0;0;0;0;0;0;0;0], [(-128);10;0;0;0;0;0;0;0;0;0], [9;23;432847302;10000000;439284771;500000001;0;0;0;0;0], []), [0;1;0;0;0;0;0;0;0;0;0;0]);
  ((5, 1, 0), ([(-110);5;228115181;0;176743402;0;0;0;0;0;0], [55;0;2;643094039;999999997;801015508;0;741020864;999999999;0;0], [], []), [0;(-1)]);
  ((0, 1, 0), ([(-126);0;999999999;0;0;0;0;0;0;0;0], [18;6;0;0;0;0;0;0;0;0;0], [(-128);0;0;0;0;0;0;0;0;0;0], []), [0;(-126);0;999999999;0;0;0;0;0;0;0;0]);
  ((1, 0, 0), ([72;0;0;60000;2147483647;800;0;615041948;664059580;60000000;10000], [18;8;0;0;0;0;0;0;0;0;0], [(-89);35;1000;100;0;0;735002127;559289157;0;1000;193659270], []), [0;72;0;0;60000;2147483647;800;0;615041948;664059580;60000000;10000]);
  ((4, 0, 0), ([(-101);0;849075471;2;37207117;0;0;0;0;0;0], [0;81;1;0;0;0;0;0;0;0;0], [9;36;39999999;0;100000;0;0;0;0;0;0], []), [0;0;81;0;0;0;0;0;0;0;0;0]);
  ((2, 0, 0), ([(-118);0;0;0;0;0;0;0;0;0;0], [107;75;0;0;0;0;0;0;323427661;388788090;735779760], [9;62;3;459320769;0;262624018;500000002;500000000;499999998;999999999;0], []), [0;1;0;0;0;0;0;0;0;0;0;0]);
  ((0, 1, 0), ([9;2;0;0;0;0;0;0;0;0;0], [(-65);23;0;0;0;0;0;0;0;0;0], [0;73;0;0;0;0;999999999;6;0;1;0], []), [0;(-65);23;0;0;0;0;0;0;0;0;0]);
  ((10, 0, 0), ([35;0;999999996;500000000;0;499999999;0;0;0;0;0], [], [], []), [0;0;4;0;999999996;500000000;0;499999999]);
  ((13, 0, 0), ([(-109);0;623181757;999999999;940368671;86267514;1;821578198;500000001;0;999999996], [], [], []), [0;0;0;0;0;0;0;0;0;0;0;0]);
  ((12, 0, 1), ([(-115);0;0;0;0;0;0;0;0;0;0], [], [18;7;0;999999998;0;0;0;0;0;0;0], [43;48;57;49;49;51;53;51;57;48;57;48;46;52;48;48;52;57;49;52;56;69;48;48;52;48;53]), [1;0;1;0;0;0;0;0;0;0;0;0;0]);
  ((0, 1, 0), ([(-92);8;781486305;0;0;752866590;45298518;0;0;0;0], [18;68;0;0;0;0;0;499999999;0;0;670038558], [(-101);36;0;0;999999997;999999999;2;0;0;0;0], []), [(-1)]);
  ((3, 1, 100), ([12;0;426037240;641021185;1;0;0;0;0;0;0], [37;2;500000001;19;0;0;0;0;0;0;0], [72;54;311000433;7999999;0;765650484;1;485426282;500000000;1;923177565], []), [0;17;36;354829812;580818663;674036064;856296740;302213556;32872881;0;0;0]);
  ((4, 1, 0), ([36;2;786538194;983855934;368590619;317520251;0;0;0;0;0], [9;27;809632947;0;0;0;0;0;0;0;0], [11;17;809123107;797402015;269640771;0;0;0;0;0;0], []), [0;0;27;481329853;0;0;0;0;0;0;0;0]);
  ((0, 0, 0), ([(-128);22;999999999;0;367615830;499999999;0;999999999;0;373996744;1], [(-74);18;0;499999998;0;100000;666227584;4212245;999999998;499999998;0], [36;7;774572599;0;10000000;881892235;999999996;0;0;0;0], []), [(-1)]);
  ((8, 0, 0), ([(-92);1;999999999;2999999;0;704435555;699685964;1;100;499999998;274161038], [], [], []), [1;3]);
  ((10, 1, 0), ([(-85);0;0;0;0;0;0;0;0;0;0], [], [], []), [0;1;5;0;0;0;0;0;0]);
  ((1, 0, 0), ([36;0;0;771504846;16686420;499999999;0;0;0;0;0], [45;8;456907358;509773042;148898656;10000;3;929007697;0;0;0], [27;5;0;457565030;999999999;0;0;0;0;0;0], []), [0;(-83);8;456907358;509773042;377393810;983323579;500000003;929007696;0;0;0]);
  ((10, 1, 0), ([54;6;999999997;388741231;416833756;999999999;2;156640567;1000000;0;0], [], [], []), [0;0;6;1;999999997;388741231;416833756;999999999;2;156640567;1000000]);
  ((2, 0, 0), ([43;6;0;0;0;0;0;0;0;0;0], [69;7;436910250;499999998;0;0;10000;999999999;999999999;999999999;558821150], [47;6;9999;3;0;899999;381007106;0;0;0;0], []), [0;1;0;0;0;0;0;0;0;0;0;0]);
  ((0, 0, 0), ([45;97;0;0;0;0;0;999999999;0;0;0], [36;15;999999999;999999998;0;499999998;281138029;1;0;0;0], [18;4;424823903;577388584;0;0;0;0;0;0;0], []), [(-1)]);
  ((3, 1, 18446744073709551615), ([36;0;0;0;0;500000000;0;0;0;0;0], [(-110);0;1;999999999;0;0;0;0;0;0;0], [9;27;0;0;0;0;0;0;0;0;0], []), [0;(-110);0;499999999;500000000;0;0;0;0;0;0;0]);
  ((0, 1, 0), ([29;27;0;0;0;0;199999;530791582;922989969;0;0], [9;9;651343241;925601655;500000000;804389948;905095493;0;692084412;499999999;863055385], [(-20);50;999999996;10000;999999999;999999999;799999999;162310121;426369900;0;0], []), [0;36;27;0;0;651343241;925601655;199999;530791582;922989969;0;0]);
  ((14, 0, 18446744073709551615), ([(-110);0;999999999;905405438;359436475;499999999;773252292;439399569;468589377;0;243525499], [], [], []), [0;27;0;709551615;446744073;18;0;0;0;0;0;0]);
  ((4, 1, 0), ([16;0;215667366;33783273;357531464;188706972;946051149;398550329;0;0;0], [35;0;499999999;322809991;500000001;870647121;0;0;0;0;0], [9;17;3;999999999;999999999;0;0;0;0;0;0], []), [0;16;0;215667366;33783273;0;0;0;0;0;0;0]);
  ((2, 0, 0), ([(-123);0;2;3;114933482;36116502;999999999;345104478;732417856;999999999;2147483647], [27;9;0;0;0;0;0;0;0;0;0], [(-128);8;0;0;0;0;0;0;0;0;0], []), [0;1;0;0;0;0;0;0;0;0;0;0]);
  ((2, 0, 0), ([13;27;919589519;0;999999999;69999;91606960;0;999999996;219936160;0], [45;9;932928834;0;0;0;0;0;0;0;0], [0;2;0;0;0;0;0;0;0;0;0], []), [0;63;18;67071166;18379999;379149945;85462774;0;0;0;0;0]);
  ((3, 0, 4), ([72;6;500000000;0;65603274;999999999;221314510;999999999;999999999;499999999;500000000], [(-128);17;2;133624325;0;0;0;0;0;0;0], [59;22;873211549;999999999;499999998;1;0;504400354;42566971;8000000;595708719], []), [(-1)]);
  ((4, 0, 0), ([55;9;999999999;377608346;977403733;999999999;999999999;315703673;0;277797598;0], [13;24;0;0;0;0;0;0;0;0;0], [9;0;664091484;0;0;0;0;0;0;0;0], []), [1;1;1;0;0;0;0;0;0;0;0;0;0]);
  ((2, 0, 0), ([(-128);23;0;0;0;0;0;0;0;0;0], [18;16;73238478;800000000;0;0;0;0;0;0;0], [9;5;0;0;0;0;0;0;0;0;0], []), [0;1;0;0;0;0;0;0;0;0;0;0]);
  ((9, 1, 0), ([31;7;0;0;0;0;0;0;0;0;0], [], [], []), [0;0]);
  ((10, 1, 0), ([36;18;0;40;399999;516923115;799738482;999999999;0;0;0], [], [], []), [0;0;4;2;0;40;399999;516923115;799738482;999999999]);
  ((3, 0, 258), ([59;0;585190443;0;414809555;999999999;0;0;0;0;0], [(-110);0;414809556;999999999;0;0;0;0;0;0;0], [(-128);27;0;0;0;0;0;0;0;0;0], []), [(-1)]);
  ((3, 1, 9), ([0;23;0;0;0;0;0;0;0;0;0], [20;0;1;670200099;476732423;999999999;0;87476398;499999998;999999999;853123545], [18;0;2;251415053;0;0;0;0;0;0;0], []), [0;1;0;0;0;0;0;0;0;0;0;0]);
  ((10, 0, 0), ([0;3;0;0;0;0;0;0;0;0;0], [], [], []), [0;0;0;1;0]);
  ((12, 0, 1), ([18;6;0;999999999;999999999;0;0;0;0;0;0], [], [27;0;920508860;0;861445194;0;0;0;0;0;0], [57;57;54;48;50;51;50;53;50;48;56;55;53;52;48;51;54;57;51;45;57;52;49;57;55;48;55;101;45;48;53]), [1;0;1;0;0;0;0;0;0;0;0;0;0]);
  ((1, 1, 0), ([18;14;499999998;790904623;999999998;199999;0;0;0;0;0], [9;21;267881373;999999997;0;3845509;707407980;999999997;1;54782920;2], [18;9;0;0;0;0;0;0;0;0;0], []), [0;18;21;732118627;500000000;790904622;996154489;199999;0;0;0;0]);
  ((2, 0, 0), ([(-123);0;0;831046528;358558678;999999999;500000001;45080331;5982283;0;0], [18;7;806231724;999999999;195819729;0;0;0;0;0;0], [(-114);5;90000000;0;500000000;999999999;322230212;856047328;999999997;0;0], []), [0;27;7;0;0;0;0;0;0;0;0;0]);
  ((13, 0, (-9223372036854775808)), ([9;0;0;0;0;0;0;0;0;0;0], [], [], []), [0;(-109);0;854775808;223372036;9;0;0;0;0;0;0]);
  ((11, 0, (-5)), ([21;0;772688382;358796214;955718906;0;0;0;0;0;0], [], [], []), [0;57;53;53;55;49;56;57;48;54;51;53;56;55;57;54;50;49;52;55;55;50;54;56;56;51;56;50]);
  ((7, 1, 10), ([(-119);24;2000000;411412093;400000000;499999998;0;0;0;0;0], [], [12;16;0;999999999;100000000;80000;0;0;0;0;0], []), [0;(-119);10;400000000;400000000;499999998;0;0;0;0;0;0]);
  ((3, 1, 20), ([0;38;999999998;18;499999990;982454390;672515206;827484793;0;0;0], [7;19;999999999;5;499999999;827484794;0;0;0;0;0], [27;4;1;100000;500000002;0;0;0;0;0;0], []), [0;0;36;236391242;723677971;812722132;0;0;0;0;0;0]);
  ((12, 1, 1), ([0;22;171952938;0;0;0;0;0;0;0;0], [], [18;9;0;0;0;701422627;1000;0;0;0;0], [56;57;57;57;52;53;48;50;54;56;48;52;57;57;48;48;48;55;54;55;46;56;57;48;50;57;48;55;55;48;69;45;48;48;52]), [0;16;13;77000000;76789029;268049900;8999450;0;0;0;0;0]);
  ((4, 1, 0), ([2;2;999999997;1;499999998;500000001;0;0;0;0;0], [(-22);27;2;0;500000002;0;0;0;0;0;0], [(-119);26;0;0;0;0;0;0;0;0;0], []), [(-1)]);
  ((3, 1, 0), ([18;0;0;10;0;0;0;0;0;0;0], [(-110);25;100000;0;0;0;0;0;0;0;0], [57;2;0;0;0;0;0;0;0;0;0], []), [0;(-96);27;0;0;0;0;0;0;100000;0;0]);
  ((4, 1, 0), ([(-126);14;503856574;165381144;999999999;405199735;645807784;0;0;0;0], [18;0;834618858;0;0;0;0;0;0;0;0], [7;3;499999999;0;0;0;0;0;0;0;0], []), [0;(-119);14;503856574;165381144;165381141;0;0;0;0;0;0]);
  ((12, 1, 0), ([50;15;0;600000;0;999999999;767121196;1;404311299;999999997;0], [], [(-128);9;0;0;0;0;0;0;0;0;0], [57;46;56;53;50;50;57;53;53;51;50;52;54;44;50;53;52;49;56;53;48;57]), [1;0;(-128);9;0;0;0;0;0;0;0;0;0]);
  ((4, 1, 0), ([27;9;0;0;434860646;6;0;0;0;0;0], [(-51);8;999999999;1;0;999999999;1;0;0;0;0], [(-92);7;87783915;868005296;1000;243841185;0;0;0;0;0], []), [(-1)]);
  ((3, 0, 20), ([27;0;352189195;0;500000001;500000002;420037440;318400103;2;500000001;0], [(-116);27;99;853927397;134630667;571995955;999999999;0;0;0;0], [9;9;1;1;0;0;0;0;0;0;0], []), [0;(-119);36;773729180;522092525;304471637;214002023;500000001;0;0;0;0]);
  ((12, 0, 0), ([36;0;40000000;209650408;0;607235057;0;0;0;0;0], [], [18;36;(-1000000000);651021824;999999997;0;379838699;3;0;817082742;0], [57;48;55;55;57;48;57;57;57;56;52;57;50;53;48;48;55;57;55;57;52;48;53;50;57;48;56;57;49;50;53;51;50;48;48;53;53;50;48;48;57;46]), [0;41;0;200552009;290891253;7979405;99984925;90779;3;0;817082742;0]);
  ((3, 0, 20), ([27;14;920716616;40249926;629370314;2154397;76685567;307771477;0;0;0], [18;0;1;307771478;0;0;0;0;0;0;0], [44;0;3;0;452852685;59;0;288021274;77161006;313276179;754293617], []), [0;8;36;790646105;576814141;970507897;992361219;249163981;0;0;0;0]);
  ((7, 1, 0), ([81;0;0;0;0;0;499999998;284245270;6000;999999998;628055613], [], [(-119);9;1;463761472;0;0;0;0;0;0;0], []), [0;81;0;0;0;0;0;499999998;284245270;6000;999999998;628055613]);
  ((3, 1, 20), ([(-119);7;999999999;999960000;119997;999999996;2;0;0;0;0], [(-96);47;0;999999999;2;0;0;0;0;0;0], [(-52);9;0;0;0;0;0;0;0;0;0], []), [(-1)]);
  ((4, 1, 0), ([13;0;0;574458257;0;0;0;0;0;0;0], [36;0;490592655;100000;999999999;728481229;0;0;0;0;0], [18;(-110);393470010;30000000;186349407;225282593;999999999;742310771;101635202;555109711;76998869], []), [0;13;0;0;574458257;0;0;0;0;0;0;0]);
  ((6, 1, (-1)), ([63;0;0;958981456;692122790;29999999;380819387;1;387567842;1;47610735], [], [], []), [0;63;0;0;958981456;692122790;29999999;380819387;1;387567842;1;47610735]);
  ((11, 1, 0), ([36;0;0;0;0;0;0;0;0;0;0], [], [], []), [0;48]);
  ((3, 0, 18446744073709551615), ([19;50;19999;0;0;0;0;0;0;0;0], [(-110);0;1;0;0;0;0;0;0;0;0], [38;9;3;999999999;100;300000;499;356609958;0;0;0], []), [0;0;36;0;0;0;0;0;0;0;0;0]);
  ((1, 0, 0), ([(-65);9;0;0;500000000;999999999;42684026;999999996;2;355161874;999999999], [(-115);4;0;0;0;0;0;0;0;0;0], [(-10);15;0;0;704089021;0;0;0;0;0;0], []), [0;(-65);9;0;0;500000000;999999999;42684026;999999996;2;355161874;999999999]);
  ((3, 0, 249), ([9;5;0;0;0;0;0;0;0;0;0], [(-65);53;500000001;0;413824646;458864844;0;109179192;0;500000002;1], [9;0;0;0;0;0;0;0;0;0;0], []), [(-1)]);
  ((12, 0, 1), ([(-119);14;0;0;3;0;0;0;0;0;0], [], [71;9;772000558;785926928;0;0;0;1000;999999999;999999998;999999999], [53;50;57;50;50;57;55;57;50;52;48;48;49;57;57;49;51;54;56;48;56;50;57;54;55;55;54;55;54;57;57;48;54;50;49;51;54;48;48;55;51;46]), [0;41;0;621360073;677676990;913680829;979240019;52922;0;0;0;0]);
  ((4, 1, 0), ([27;0;10;0;0;0;0;0;0;0;0], [3;0;1;0;0;0;0;0;0;0;0], [(-119);0;999999999;0;0;0;0;0;0;0;0], []), [0;0;0;0;0;0;0;0;0;0;0;0]);
  ((5, 0, 0), ([72;32;0;0;0;0;0;0;0;700000;0], [59;0;727418276;0;499999998;90000000;384559721;999999999;292802598;0;0], [], []), [(-1)]);
  ((8, 0, 0), ([72;0;382402746;484841658;838170087;0;960674328;552833742;10000;999999997;0], [], [], []), [1;3]);
  ((11, 0, (-5)), ([36;26;0;0;0;0;0;0;0;0;0], [], [], []), [0;48;46;48;48;48;48;48;48;48;48;48;48;48;48;48;48;48;48;48;48;48;48;48;48;48;48;48;48]);
  ((6, 0, 256), ([45;6;856441143;0;0;303829185;239672744;399999999;0;100000;0], [], [], []), [(-1)]);
  ((3, 0, 0), ([6;9;692354055;73858637;0;0;0;0;0;0;0], [28;0;738586373;0;0;0;0;0;0;0;0], [18;9;500000002;999999996;962615442;0;0;0;0;0;0], []), [0;0;9;100000000;0;0;0;0;0;0;0;0]);
  ((8, 0, 0), ([5;25;0;1;20000;1;0;0;0;0;0], [], [], []), [0;1]);
  ((9, 1, 0), ([36;39;0;0;0;0;0;999999997;0;10000;274159431], [], [], []), [1;3]);
  ((4, 0, 0), ([(-110);27;305286999;39;69440100;74;0;0;0;0;0], [100;31;100;0;0;0;0;0;0;0;0], [21;3;308253386;0;0;0;0;0;0;0;0], []), [(-1)]);
  ((4, 0, 0), ([54;9;578222600;182189755;849246440;598571172;799999;0;0;0;0], [0;31;1999999;0;0;0;0;0;0;0;0], [18;0;0;0;0;0;0;0;0;0;0], []), [0;0;31;0;0;0;0;0;0;0;0;0]);
  ((4, 1, 0), ([9;1;999999999;0;0;0;0;0;0;0;0], [18;13;1;0;0;0;0;0;0;0;0], [(-112);17;0;0;0;0;0;0;0;0;0], []), [0;0;13;0;0;0;0;0;0;0;0;0]);
  ((9, 1, 0), ([40;6;461100793;288082242;99999;999999996;62465404;499999998;0;0;0], [], [], []), [1;3]);
  ((14, 0, 3591438094657302527), ([63;18;999999996;891275878;883910963;204394333;999999999;999999999;999999997;97999492;10000000], [], [], []), [0;27;0;657302527;591438094;3;0;0;0;0;0;0]);
  ((7, 0, 255), ([54;29;132776516;725052195;999999999;873692749;0;0;0;607011101;31450750], [], [27;0;0;0;0;0;0;0;0;0;0], []), [(-1)]);
  ((4, 1, 0), ([9;0;0;536864971;721661650;999999999;0;0;0;0;0], [(-128);9;1;0;0;0;0;0;0;0;0], [18;0;200000;251379017;0;0;0;0;0;0;0], []), [0;1;0;0;0;0;0;0;0;0;0;0]);
  ((10, 0, 0), ([9;11;0;0;0;0;0;0;0;0;0], [], [], []), [0;0;1;2;0;0;0]);
  ((4, 1, 0), ([(-33);45;999999999;0;499999998;0;0;0;0;0;0], [(-128);57;1;0;0;0;0;0;0;0;0], [27;0;1;0;999999999;0;0;0;0;0;0], []), [(-1)]);
  ((12, 0, 1), ([60;0;500000001;499999998;999999999;0;999999999;999999999;468232424;0;799999999], [], [36;10;1;999999996;659586875;999999997;1000;0;0;0;100000], [45;48;50;57;52;53;56;53;53;48;55;50;49;50;54;48;48;56;50;57;57;50;51;57;53;52;54;51;49;46;55;49;49;57;50;51;101;43;48;50]), [0;(-98);4;192300000;395463171;260082992;458550721;29;0;0;0;0]);
  ((3, 0, 0), ([(-101);9;64846978;547576511;508635233;76211744;20000000;0;0;0;0], [(-8);12;2;499999999;500000001;0;0;0;0;0;0], [(-113);41;0;0;0;358526713;500000000;354466497;0;0;0], []), [(-1)]);
  ((13, 0, (-1000000000)), ([8;0;0;0;0;0;0;0;0;0;0], [], [], []), [0;(-110);0;0;1;0;0;0;0;0;0;0]);
  ((6, 1, 18), ([(-116);19;100000;718058860;215534230;843018969;0;0;0;0;0], [], [], []), [0;(-110);18;718058860;215534230;843018969;0;0;0;0;0;0]);
  ((4, 0, 0), ([81;0;0;0;999999999;285371281;745064192;1000;464899120;10000000;999999998], [3;9;0;0;0;0;0;0;0;0;0], [27;0;0;877571130;365349352;181198514;1;999999998;409945407;500000000;0], []), [1;1;1;0;0;0;0;0;0;0;0;0;0]);
  ((4, 0, 0), ([44;79;516096915;499999998;90378124;0;999999999;10000;(-2147483648);10;999999999], [(-92);0;100;0;0;269491842;0;0;0;0;0], [(-119);36;3;0;42628795;500000001;805162250;(-1000000000);999999999;0;271521350], []), [(-1)]);
  ((0, 0, 0), ([(-92);7;999999997;3;499999999;0;0;0;0;0;0], [(-48);36;0;0;0;0;0;3;208928374;0;0], [(-66);0;0;422270015;0;0;0;0;0;0;0], []), [(-1)]);
  ((3, 0, 20), ([(-98);0;0;291442731;687179731;0;0;0;0;0;0], [45;13;300;600000000;100000000;100;10000;0;0;0;0], [(-110);17;0;0;0;0;0;0;0;0;0], []), [0;(-123);36;602530327;28295660;406188980;973128456;68717;0;0;0;0]);
  ((4, 1, 0), ([(-106);0;493732631;3674;499989999;158681319;2955;0;0;0;0], [18;2;367412632;0;499999999;295486319;0;0;0;0;0], [(-92);50;0;999999999;0;633394552;0;0;0;0;0], []), [0;(-110);2;620052632;126327347;499983673;0;0;0;0;0;0]);
  ((3, 0, 100), ([(-105);0;0;0;0;0;0;0;0;0;0], [(-65);44;500000000;0;0;587516124;999999999;0;760430737;10000;999999999], [(-114);9;0;403807774;0;0;0;0;0;0;0], []), [(-1)]);
  ((10, 0, 0), ([18;14;50;500000002;999999999;0;100000;499999999;999999997;491135022;0], [], [], []), [0;0;2;2;50;500000002;999999999;0]);
  ((2, 1, 0), ([18;0;0;217616242;0;0;0;0;0;0;0], [9;8;0;0;0;0;0;0;0;0;0], [(-80);27;3;100000000;0;0;0;999999999;0;1;999999999], []), [0;1;0;0;0;0;0;0;0;0;0;0]);
  ((3, 0, 1), ([4;0;637663062;638428898;626279436;682109485;455257320;940766;0;0;0], [43;25;3;999999999;565846560;4999999;0;0;0;0;0], [(-117);47;0;0;0;999999999;999179673;6999999;737378320;0;0], []), [0;3;27;739492609;745413163;532623473;127;0;0;0;0;0]);
  ((12, 1, 1), ([(-94);0;620829138;0;0;999999996;0;0;0;0;0], [], [0;68;0;35705132;10000;999999999;799999;9999999;949845450;0;0], [45;54;49;46;50]), [0;(-126);1;200000000;61;0;0;0;0;0;0;0]);
  ((11, 1, (-5)), ([97;0;0;0;175191808;0;0;0;0;0;0], [], [], []), [(-1)]);
  ((8, 1, 0), ([27;0;0;0;0;0;0;0;0;0;0], [], [], []), [0;0]);
  ((10, 0, 0), ([(-92);26;499999998;1000;0;89956210;8999999;0;1000;0;0], [], [], []), [0;1;4;3;499999998;1000;0;89956210;8999999;0;1000]);
  ((3, 1, 0), ([0;0;0;0;0;0;0;0;0;0;0], [18;9;0;96120145;651766249;0;328008235;500;920878483;338818666;49999], [15;24;0;0;0;0;0;0;0;0;0], []), [0;1;0;0;0;0;0;0;0;0;0;0]);
  ((7, 1, 255), ([9;21;0;0;0;0;0;0;0;0;0], [], [27;0;29;0;0;0;0;0;0;0;0], []), [(-1)]);
  ((6, 0, 0), ([9;0;0;0;0;0;0;0;0;0;0], [], [], []), [0;9;0;0;0;0;0;0;0;0;0;0]);
  ((5, 1, 0), ([(-128);0;0;0;0;0;0;0;0;0;0], [0;0;0;0;0;0;0;0;0;0;0], [], []), [0;(-1)]);
  ((4, 0, 0), ([18;0;487640704;0;0;0;0;0;0;0;0], [(-96);0;1;0;0;0;0;0;0;0;0], [0;0;0;0;0;0;0;0;0;0;0], []), [0;0;0;0;0;0;0;0;0;0;0;0]);
  ((3, 0, 20), ([0;36;1;320440000;8996767;0;0;0;0;0;0], [(-112);9;0;676732044;899;0;0;0;0;0;0], [(-120);17;100;0;0;0;0;0;0;0;0], []), [0;(-128);36;0;10000;0;0;0;0;0;0;0]);
  ((7, 0, (-9223372036854775808)), ([(-119);0;0;0;0;0;0;0;0;0;0], [], [13;4;0;4999999;0;0;0;0;0;0;0], []), [(-1)]);
  ((5, 1, 0), ([9;67;0;999999999;0;0;0;0;0;0;0], [(-110);9;43517305;999999998;0;0;0;0;0;0;0], [], []), [0;1]);
  ((2, 1, 0), ([(-128);27;100000;1000000;651340246;823896181;999999996;500000000;741005185;999999999;999999999], [0;18;275987903;999999999;2;999999996;0;0;499999999;499999999;999999999], [3;0;1;0;0;0;0;0;0;0;0], []), [0;(-128);36;902927598;632420125;529421782;651340245;0;0;0;0;0]);
  ((13, 1, 1000000000), ([(-106);(-43);504385430;454982806;500000001;0;0;0;0;0;0], [], [], []), [0;18;0;0;1;0;0;0;0;0;0;0]);
  ((4, 0, 0), ([81;0;0;0;0;0;0;0;0;0;0], [35;1;853242305;999999999;29999;0;500000001;64850317;999999999;999999999;0], [36;34;500000000;793617115;485614561;57898696;0;0;0;0;0], []), [0;1;0;0;0;0;0;0;0;0;0;0]);
  ((7, 0, 0), ([13;60;472818407;999999997;476249667;2;493929988;1;412297978;0;500000000], [], [(-112);0;706513631;0;0;0;0;0;0;0;0], []), [0;18;0;0;500000000;0;0;0;0;0;0;0]);
  ((4, 0, 0), ([0;19;500000001;47396528;0;0;0;0;0;0;0], [17;9;500000000;0;0;0;0;0;0;0;0], [17;0;0;499999999;0;0;0;0;0;0;0], []), [0;0;19;500000001;47396528;0;0;0;0;0;0;0]);
  ((4, 1, 0), ([(-47);0;999999999;0;285164377;3;100000;999999999;0;100000000;999999999], [13;0;500000000;237902104;0;0;0;0;0;0;0], [70;9;677903174;0;100;841066318;1000000;100000000;880831239;0;476866925], []), [0;(-110);0;999999999;162314082;0;0;0;0;0;0;0]);
  ((4, 0, 0), ([(-92);0;483464243;909464495;563768973;320495267;963450103;19999;0;0;0], [(-100);27;499999999;15499832;100;100000000;0;0;0;0;0], [9;0;499999998;100000;999999998;6999;0;0;0;500000000;2], []), [0;(-120);27;645207020;399862383;725244352;71999909;0;0;0;0;0]);
  ((2, 1, 0), ([(-119);18;79142667;2;499999998;100000;999999999;317560225;0;0;999999999], [(-124);6;765301728;999999998;0;0;0;0;0;0;0], [2;9;577391899;55054023;70700697;929495527;224830128;164131781;1;48281190;999999998], []), [0;18;24;813628576;432886141;548539208;382650868;499999997;0;0;0;0]);
  ((3, 1, 4), ([0;24;0;0;0;0;0;0;0;0;0], [23;(-47);79367070;0;10000;0;0;0;0;0;0], [21;0;0;12732680;800000;0;0;0;0;0;0], []), [(-1)]);
  ((10, 1, 0), ([18;9;742468339;367693452;853172329;0;0;0;0;0;0], [], [], []), [0;0;2;1;742468339;367693452;853172329]);
  ((2, 0, 0), ([(-93);0;507352079;0;3000000;865296190;999999998;999999999;999999996;0;502609085], [5;0;1;499999999;210037969;999999997;0;96029150;3;999999999;15765423], [32;38;0;0;0;0;0;10;29658396;0;100], []), [0;(-83);0;507352079;0;3000000;865296190;0;0;0;0;0]);
  ((3, 1, 18446744073709551615), ([77;0;999999999;356461830;170244545;896250594;49226661;0;0;0;0], [(-125);26;143538169;196898334;0;0;0;0;0;0;0], [(-83);20;329678814;474590778;66801330;932284334;999999999;666176032;706698406;500000000;0], []), [0;(-75);27;711100521;290212898;17877828;921236869;999999994;999999999;999999999;499999998;250010555]);
  ((3, 1, 40), ([45;2;999999999;500000002;511249230;752460534;999999997;100000;0;0;0], [6;51;999999998;634830913;720306938;100000000;29;0;812282528;100;500000001], [(-101);5;10000000;999;0;0;0;0;0;0;0], []), [0;33;36;398749943;77048216;426498120;924868671;57787825;691483452;105499486;123111;0]);
  ((3, 0, 40), ([9;6;661347796;1;499999999;1;999999999;500000001;981691466;999999999;0], [27;35;159153000;649825212;0;0;0;0;0;0;0], [36;22;500000002;1000000;886438989;210374963;10000;0;938444112;0;0], []), [0;19;36;488725518;843893159;141633677;733318387;995327160;556607168;2;0;0]);
  ((4, 1, 0), ([36;0;100000;628422808;1000;611144353;999999998;500000002;600000;0;500000000], [18;45;507676351;500000000;0;0;0;0;0;0;0], [58;18;1;999999998;931584454;0;499999998;1000000;999999998;2147483647;500000001], []), [0;0;45;242565797;380634044;0;0;0;0;0;0;0]);
  ((13, 1, 1000000000000000000), ([69;0;999999999;500000001;999999996;100000;368300139;852600312;693758362;500000001;0], [], [], []), [0;27;0;0;0;1;0;0;0;0;0;0]);
  ((4, 1, 0), ([(-31);8;100000;0;0;0;0;0;0;0;0], [(-119);12;0;0;0;0;0;0;0;0;0], [(-101);43;500000000;822629200;0;265290949;999999999;915107424;0;0;534474963], []), [1;1;1;0;0;0;0;0;0;0;0;0;0]);
  ((3, 1, 294), ([20;0;0;0;468741291;843752903;156247096;0;0;0;0], [9;1;0;3;999999999;0;0;0;0;0;0], [6;0;4999;0;0;0;0;0;0;0;0], []), [0;27;36;0;0;0;0;0;0;156247097;0;0]);
  ((6, 0, (-1)), ([(-61);0;999999999;328164053;0;612972085;64651829;999999999;499999998;987403786;0], [], [], []), [0;(-56);0;0;328164054;0;612972085;64651829;999999999;499999998;987403786;0]);
  ((3, 0, 0), ([9;0;0;0;0;0;0;0;0;0;0], [18;63;0;0;0;0;0;0;0;0;100], [18;21;0;999999998;372091619;500000001;819711361;0;0;0;0], []), [0;1;0;0;0;0;0;0;0;0;0;0]);
  ((1, 0, 0), ([(-121);0;10000;0;0;0;0;0;0;0;0], [8;0;0;0;0;0;0;0;0;0;0], [(-2);0;999999997;999999999;0;1000000;500000000;69;1;8;(-1000000000)], []), [0;(-121);0;10000;0;0;0;0;0;0;0;0]);
  ((12, 1, 0), ([11;0;0;0;0;0;0;0;0;0;0], [], [(-57);9;764696930;488642220;698312741;647440657;533611114;0;1000000;0;0], [43;48;54;53;53;50;55;51;54;48;51;54;48;55;51;53;49;52;50;56;57;56;52;50;55;54;53;54;48;48;53;57;57;48;55;50;56;50;49;49;55;48;56;48;48;49;51;57;56;57;54;49;53;51;54;57;48;57;53;52;48;48;52;55;48]), [0;64;0;95400470;989615369;117080013;59907282;984276560;607351428;655273603;0;0]);
  ((10, 0, 0), ([(-126);2;694624609;6;0;0;0;0;0;0;0], [], [], []), [0;1;1;1;694624609;6]);
  ((4, 0, 0), ([(-101);0;437147427;1000;100;0;0;0;0;0;0], [8;9;0;143849801;0;0;0;0;0;0;0], [18;0;999999998;972798050;0;0;0;0;0;0;0], []), [0;(-120);9;0;62304805;0;0;0;0;0;0;0]);
  ((4, 1, 0), ([0;46;999999998;202568432;0;735452908;0;0;0;0;0], [(-128);0;1;0;0;0;0;0;0;0;0], [26;0;223255192;679621355;499999998;0;0;0;0;0;0], []), [1;1;1;0;0;0;0;0;0;0;0;0;0]);
  ((8, 1, 0), ([27;27;359761122;2;100000000;8000;99999;999999998;0;0;0], [], [], []), [1;3]);
  ((12, 1, 0), ([(-96);33;0;0;0;0;0;0;0;0;0], [], [0;49;999999999;770684796;0;999999999;387966147;299999999;0;273258328;0], [43;57;46;101;43;48;48]), [0;1;0;9;770684796;0;999999999;387966147;299999999;0;273258328;0]);
  ((3, 0, 4), ([54;0;0;0;1000;0;5999;499999998;0;0;0], [(-119);5;331490916;0;8000;808183358;999999999;1000;500000002;3;10000], [(-119);28;0;0;0;0;1;0;0;0;0], []), [0;(-73);9;808327489;604480455;554050295;503101460;188303971;437049584;508336952;1;0]);
  ((4, 1, 0), ([6;0;3;0;0;0;0;0;0;0;0], [36;0;1;0;0;0;0;0;0;0;0], [45;27;0;375860851;999999999;456714727;772002741;10;29;445984987;0], []), [0;0;0;0;0;0;0;0;0;0;0;0]);
  ((2, 1, 0), ([(-65);33;2;2147483647;3;999999999;999999999;999999996;999999996;3;10], [10;12;270766891;89;0;963073081;247489268;0;419064171;313420911;411421442], [127;8;0;499999999;0;0;0;0;0;0;0], []), [(-1)]);
  ((4, 1, 0), ([18;11;0;0;0;0;0;0;0;0;0], [17;58;999999999;500000000;0;91226583;499999998;20000000;500000000;197240987;100000000], [0;9;999999999;0;0;0;0;0;0;0;0], []), [0;1;0;0;0;0;0;0;0;0;0;0]);
  ((4, 0, 0), ([(-125);8;1;0;0;0;0;0;0;0;0], [24;9;718139113;999999999;0;0;0;0;0;0;0], [94;0;0;1000000000;999999996;0;491133123;1;1;515843279;3], []), [0;(-125);9;1;0;0;0;0;0;0;0;0]);
  ((5, 0, 0), ([18;18;504366178;2;499999999;586010915;800000000;0;500000000;0;999999999], [(-110);18;504366178;2;499999999;586010915;800000000;0;500000000;0;999999999], [], []), [0;1]);
  ((3, 0, 40), ([36;0;100000;777134185;464916105;2;0;0;0;0;0], [(-105);14;499999999;499999;0;999999999;2;0;0;0;0], [29;4;281874665;13861505;999999998;3;363379844;0;0;0;0], []), [0;(-119);36;753353612;819826534;399760047;199590962;821638702;0;0;0;0]);
  ((11, 1, 57), ([(-128);4;500000000;0;0;0;0;0;0;0;0], [], [], []), [0;45;48;46;53;48;48;48;48;48;48;48;48;48;48;48;48;48;48;48;48;48;48;48;48;48;48;48;48;48;48;48;48;48;48;48;48;48;48;48;48;48;48;48;48;48;48;48;48;48;48;48;48;48;48;48;48;48;48;48;48]);
  ((2, 1, 0), ([(-66);14;224771967;299999999;999999999;50114562;801326252;499999998;952893738;0;64621053], [1;21;0;0;0;0;0;0;0;0;0], [(-47);0;0;0;0;0;0;0;0;527377516;999999997], []), [0;1;0;0;0;0;0;0;0;0;0;0]);
  ((6, 1, (-40)), ([18;18;0;10000;999999999;10;0;0;675428437;999999997;0], [], [], []), [0;1;0;0;0;0;0;0;0;0;0;0]);
  ((12, 1, 0), ([63;7;999999998;999999998;40000;0;499999999;213756448;758440652;139854623;0], [], [(-11);0;999999997;799;999999999;0;0;0;0;0;0], [57;48;50;52;55;52;55;48;50;53]), [0;10;0;24747025;9;999999999;0;0;0;0;0;0]);
  ((1, 1, 0), ([16;0;474065688;999999999;0;0;0;0;0;0;0], [(-113);16;338171582;1;0;805292281;0;0;0;0;0], [16;0;499999998;10;0;0;0;0;0;0;0], []), [0;27;16;338171582;1;474065688;805292280;1;0;0;0;0]);
  ((0, 0, 0), ([(-100);18;574569827;0;100000000;770362875;739230902;619733719;0;0;0], [(-119);0;999999996;0;0;0;0;0;0;0;0], [71;9;601638849;0;0;0;0;0;0;0;0], []), [0;(-92);18;574569827;0;99999996;770362876;739230902;619733719;0;0;0]);
  ((2, 0, 0), ([(-56);0;0;500000001;999999997;100000000;999999997;999999999;531313120;0;0], [51;15;692382988;0;999999997;80000000;0;0;0;0;0], [96;10;0;0;0;0;0;0;0;0;0], []), [(-1)]);
  ((5, 0, 0), ([27;41;0;0;0;0;0;0;0;0;0], [27;41;0;0;0;0;0;0;0;0;0], [], []), [0;0]);
  ((2, 1, 0), ([9;12;0;0;0;0;0;0;0;0;0], [4;3;0;0;0;0;0;0;0;0;0], [1;0;0;0;0;0;0;0;0;0;0], []), [0;1;0;0;0;0;0;0;0;0;0;0]);
  ((11, 0, (-1)), ([0;20;288321867;0;0;0;0;0;0;0;0], [], [], []), [0;48;46;48;48;48;48;48;48;48;48;48;48;48;48;48;48;48;48;48;48;50;56]);
  ((12, 0, 1), ([(-104);17;277083687;20000;3;900000;999999999;0;0;0;0], [], [(-21);6;819396405;500000002;500000002;500000000;973837811;0;0;0;0], [45;55;57;48;54;48;55;51;50;55;56;51;55;50;48;54;51;56;57;57;54;53;48;57;53;48;48;48;56;51;50;57;49;48;55;57;48;51;54;48;54;55;52;57;50;52;57;50;56;57;51;48;54;48;51;56;49;49;55;54;55;49;51;56;46]), [0;(-65);0;811767138;928930603;360674924;832910790;965095000;837206389;790607327;0;0]);
  ((12, 1, 1), ([9;0;0;0;0;0;0;0;0;0;0], [], [(-104);0;0;999999996;100000000;0;0;0;0;0;0], [43;48;49;48;49;53;57;52;56;57;48;49;48;49;51;56;48;52;51;46;48;51;53;57;49;49;48;52;52;54;53;52;49;52;48;48;48;49;55;57;51;52;54;57;51;50;52;54;53;50]), [0;18;30;652000000;793469324;654140001;35911044;10138043;10159489;0;0;0]);
  ((12, 0, 1), ([20;6;0;0;918004680;999999997;0;0;0;0;0], [], [(-101);45;70;514897499;999999999;999999999;999999997;848851936;1000000005;0;100000000], [54;46;54]), [0;1;1;600000000;6;0;0;0;0;0;0;0]);
  ((6, 1, (-18)), ([47;10;0;0;999999999;0;500000001;0;500;713389044;931435100], [], [], []), [0;54;0;0;0;500000001;0;500;713389044;0;0;931435100]);
  ((4, 0, 0), ([20;21;533033417;999999999;930189236;694221689;682166109;999999999;0;0;0], [14;0;0;0;0;0;0;0;0;0;0], [19;1;0;0;89999;0;0;0;0;0;0], []), [1;1;1;0;0;0;0;0;0;0;0;0;0]);
  ((0, 0, 0), ([32;0;500000000;331247572;999999999;539641511;499999998;782488085;202814754;999999999;359047071], [6;0;1999999;0;0;0;0;0;0;0;0], [20;0;0;0;0;0;0;0;0;0;0], []), [0;36;0;501999999;331247572;999999999;539641511;0;0;0;0;0]);
  ((4, 1, 0), ([113;1;761561623;500000000;0;0;0;0;0;0;0], [63;0;0;0;0;0;0;0;0;0;0], [65;0;999999999;0;952771148;0;999999999;1;295529208;629488948;0], []), [1;1;1;0;0;0;0;0;0;0;0;0;0]);
  ((2, 1, 0), ([63;0;0;500000001;500000000;999999997;0;609575926;500000000;0;0], [0;9;999999999;0;0;0;0;0;0;0;0], [9;0;823427099;0;0;0;0;0;0;0;0], []), [0;63;9;0;499999999;0;500000003;999999996;390424074;109575925;500000000;0]);
  ((1, 0, 0), ([0;14;0;0;0;0;0;0;0;0;0], [8;9;0;0;2;2999;0;0;841133388;280903084;999999999], [18;34;793395705;84002365;595932536;973350813;999999999;363723842;0;0;0], []), [0;(-120);9;0;0;2;2999;0;0;841133388;280903084;999999999]);
  ((8, 1, 0), ([13;0;497453689;884420726;0;0;0;0;0;0;0], [], [], []), [0;884420726497453689]);
  ((2, 1, 0), ([(-71);0;132717250;633465409;0;23254738;0;0;0;0;0], [9;18;0;604129349;500000001;0;0;0;0;0;0], [27;0;0;999999999;302033908;0;0;0;0;0;0], []), [0;(-56);9;843570250;366084376;582519079;45838267;37303608;11627369;0;0;0]);
  ((0, 0, 0), ([4;9;500000002;552432349;0;0;0;0;0;0;0], [36;13;999999996;0;641561141;0;103822015;100000000;0;0;0], [(-110);18;0;999999996;999999996;500000000;0;0;0;0;0], []), [0;36;13;999999996;500000002;193993490;1;103822015;100000000;0;0;0]);
  ((3, 0, 40), ([(-119);18;0;0;0;0;0;0;0;0;0], [8;18;313294845;999999998;0;0;0;0;0;0;0], [(-92);18;977540412;227933299;0;0;388437306;81966633;0;0;0], []), [0;1;0;0;0;0;0;0;0;0;0;0]);
  ((4, 0, 0), ([14;0;182399999;543408613;124403521;444207609;634233502;140309243;0;0;0], [5;22;100000;221007388;0;0;0;0;0;0;0], [9;12;518327877;999999998;797801938;0;0;0;0;0;0], []), [0;0;22;283200000;104759655;0;0;0;0;0;0;0]);
  ((1, 0, 0), ([36;18;943922405;969695720;0;3;100000000;133175613;0;0;0], [8;14;539708616;49999;0;0;0;0;0;0;0], [(-92);1;0;0;0;0;0;0;0;0;0], []), [0;36;18;404213789;969645721;0;3;100000000;133175613;0;0;0]);
  ((5, 1, 0), ([107;1;1;499999999;999999999;0;0;0;0;0;0], [(-101);15;999999999;2;2;999999996;499999998;203492796;10000000;163956074;244331667], [], []), [0;1]);
  ((6, 1, 75), ([(-128);75;0;384602482;499999999;408691750;1000;75469857;0;2;80], [], [], []), [0;(-128);75;0;384602482;499999999;408691750;1000;75469857;0;2;80]);
  ((3, 0, 4), ([8;25;316569700;642294063;37919835;368959048;329818390;174814977;0;0;0], [0;26;603165697;332454597;43703744;0;0;0;0;0;0], [35;17;811177685;3;500000000;0;0;0;1000;236769135;0], []), [0;11;36;565708153;669121781;66904526;277934326;442275454;8;0;0;0]);
  ((7, 0, 13), ([9;14;0;0;0;0;0;0;0;0;0], [], [0;0;1;144570314;10000;0;500000001;2;10000000;939960280;2], []), [0;9;13;0;0;0;0;0;0;0;0;0]);
  ((5, 0, 0), ([30;1;2;500000002;500000001;499999999;0;0;0;0;0], [30;1;2;500000002;500000001;499999999;0;0;0;0;0], [], []), [0;0]);
  ((9, 1, 0), ([(-128);18;3;2;3;0;999999999;999999996;894472637;999999999;999999998], [], [], []), [1;3]);
  ((3, 0, 4), ([96;16;745236126;0;0;0;0;0;0;0;0], [84;13;1;0;0;0;0;0;0;0;0], [21;48;500000002;0;2;715959398;0;0;0;0;0], []), [(-1)]);
  ((12, 1, 0), ([0;9;500000001;365229221;2;0;499999998;878069715;999999999;113326771;371778000], [], [123;1;993243607;0;999999999;497253380;999999996;3;979497701;407932181;999999999], [46]), [1;0;123;1;993243607;0;999999999;497253380;999999996;3;979497701;407932181;999999999]);
  ((4, 1, 0), ([72;9;454899366;508153739;369563098;355063979;883725545;31712830;0;0;0], [(-128);21;545100633;36946893;0;0;0;0;0;0;0], [56;0;6;999999998;999999999;0;999999998;999999999;0;0;0], []), [0;0;21;262817724;34513019;0;0;0;0;0;0;0]);
  ((3, 1, 1), ([(-92);13;200000001;740178721;699999990;954159310;49999999;0;0;0;0], [36;9;100000000;10;50000000;0;0;0;0;0;0], [(-110);59;395692364;69999999;399999999;858859674;0;500000000;0;597751976;188854819], []), [0;(-119);27;0;0;83186012;999999999;0;0;0;0;0]);
  ((8, 0, 0), ([95;9;430923664;29;375237410;79999999;999999999;2;0;659456312;753678942], [], [], []), [(-1)]);
  ((14, 1, 0), ([22;27;999999999;0;100000;539180861;2;2;999999999;0;18612162], [], [], []), [0;0;0;0;0;0;0;0;0;0;0;0]);
  ((6, 1, 13), ([36;13;999999999;171608099;877865901;545352561;426689272;27828125;0;0;0], [], [], []), [0;36;13;999999999;171608099;877865901;545352561;426689272;27828125;0;0;0]);
  ((4, 1, 0), ([88;36;16313049;134204057;0;0;0;0;0;0;0], [39;9;964962786;0;0;0;0;0;0;0;0], [27;2;0;1;69999;0;0;0;0;0;0], []), [(-1)]);
  ((11, 1, (-1)), ([0;0;0;0;0;0;0;0;0;0;0], [], [], []), [0;48]);
  ((1, 0, 0), ([12;0;0;10000;0;0;0;0;0;0;0], [(-110);0;500000001;0;499999999;106627142;999999999;146842490;999999999;3;999999999], [18;28;713506167;462569383;499999;499999998;0;796619891;0;0;0], []), [0;18;0;500000001;10000;0;0;0;0;0;0;0]);
  ((4, 1, 0), ([62;20;0;0;0;0;0;0;0;0;0], [18;15;0;500000002;3;0;722287266;0;0;0;0], [72;9;959346949;1;1000;999999996;999999999;999999999;0;0;971373328], []), [(-1)]);
  ((2, 1, 0), ([(-121);13;0;199999;10000000;0;0;0;0;0;0], [9;9;796014153;888365798;0;0;0;0;0;0;0], [27;0;819669117;999999999;0;0;0;0;0;0;0], []), [0;(-110);22;0;34585847;801393404;988137813;8883657;0;0;0;0]);
  ((4, 0, 0), ([12;46;0;0;0;908099711;10000;999999998;976472484;999999999;0], [36;35;500000001;699;236098596;8999;439532876;0;0;0;0], [72;1;0;0;500000000;324564399;0;351962372;883489081;30;99999], []), [0;9;46;0;0;224857333;445804142;621612877;453981675;239631718;0;0]);
  ((2, 1, 0), ([4;0;77954735;0;0;0;0;0;0;0;0], [9;67;100000;0;500000000;10000000;6999999;999999999;3;155271791;529389511], [(-119);72;507514079;999999999;500000000;3;1000000;0;999999998;1000000;500000001], []), [(-1)]);
  ((14, 0, 1000000000), ([63;0;1;289214448;59999;0;0;999999998;216336553;999999998;190133500], [], [], []), [0;18;0;0;1;0;0;0;0;0;0;0]);
  ((3, 0, 40), ([45;0;499999998;0;0;0;0;0;0;0;0], [18;24;1;0;0;0;0;0;0;0;0], [45;18;0;0;0;0;0;0;7999999;0;0], []), [0;36;36;0;0;0;0;0;0;0;499999998;0]);
  ((3, 0, 0), ([(-47);0;0;0;0;0;0;0;0;0;0], [24;0;999999999;2;403923006;659935447;0;0;0;0;0], [5;9;737070669;100000000;820466444;0;878545362;0;500000000;432833041;3], []), [0;1;0;0;0;0;0;0;0;0;0;0]);
  ((11, 1, 0), ([0;0;0;0;0;0;0;0;0;0;0], [], [], []), [0;48]);
  ((3, 1, 4), ([17;36;115009694;884990306;197863966;802136033;0;0;0;0;0], [18;0;999999999;0;0;0;0;0;0;0;0], [32;27;0;0;1;900000;1000000;0;0;0;0], []), [0;0;36;884990307;0;802136034;0;0;0;0;0;0]);
  ((12, 0, 0), ([9;25;0;961516749;0;999999999;0;(-2147483648);0;900000;899999], [], [81;0;0;0;0;0;0;0;0;900000000;100], [54;57;49;49;53;48;57;48;55;48;52;52;55;52;54;57;57;48;55;48;55;48;51;49;54;57;48;48;56;57;48;51;55;54;48;52;57;48;52;49;52;57;53;57;52;56;54;48;51;49;57;57;48;50;48;49;48;51;57;51;56;53;50;56;48;46;49]), [1;0;81;0;0;0;0;0;0;0;0;900000000;100]);
  ((4, 1, 0), ([27;0;79999;0;0;0;0;0;0;0;0], [36;0;995482468;500000001;667281799;282091057;999999999;1;699999;0;500000001], [9;27;0;539821000;468394598;901498195;0;0;0;0;0], []), [0;27;0;79999;0;0;0;0;0;0;0;0]);
  ((8, 0, 0), ([(-50);53;100;999999996;999878125;0;69327951;499999999;30;3;999999999], [], [], []), [(-1)]);
  ((4, 0, 0), ([28;2;0;999999998;96961138;0;0;0;0;0;0], [54;0;1;0;0;0;0;0;0;0;0], [(-48);0;3;100000000;0;0;0;0;0;0;0], []), [0;0;2;0;0;0;0;0;0;0;0;0]);
  ((8, 0, 0), ([27;0;3;499999999;521600916;0;0;2;0;953235198;499999998], [], [], []), [1;3]);
  ((4, 1, 0), ([13;0;2;2;0;0;0;0;0;0;0], [9;18;0;0;0;0;0;0;0;0;0], [(-65);0;500000001;425080167;0;500000000;884106336;561921851;999999999;0;0], []), [1;1;1;0;0;0;0;0;0;0;0;0;0]);
  ((10, 0, 0), ([(-83);31;500000001;0;500000001;0;287125750;3;500000000;583409976;922470978], [], [], []), [0;1;5;4;500000001;0;500000001;0;287125750;3;500000000;583409976;922470978]);
  ((2, 1, 0), ([(-119);0;0;0;0;0;0;0;0;0;0], [26;35;207075394;100000;1000000;10000000;100000000;918886974;9000;1000;1], [(-74);0;999999999;499999999;0;888248059;500000002;1;0;0;10], []), [0;1;0;0;0;0;0;0;0;0;0;0]);
  ((6, 0, 15), ([16;13;999999999;999999999;100;999999999;0;0;0;10000;3], [], [], []), [0;16;15;999999999;999999999;100;999999999;0;0;0;10000;3]);
  ((0, 1, 0), ([18;2;914684763;0;999999999;0;0;0;0;0;0], [(-101);22;828091874;499999999;363162203;999999999;0;500000000;0;0;0], [29;0;641911345;6;0;0;0;0;0;0;0], []), [0;(-101);22;828091874;499999999;448477440;999999998;1;499999999;0;0;0]);
  ((4, 0, 0), ([80;0;999999999;369416695;254033122;978005664;213252831;0;0;0;0], [0;52;0;796159656;0;0;0;0;0;0;0], [16;0;499999998;748017744;0;0;0;0;0;0;0], []), [0;0;52;0;48466160;0;0;0;0;0;0;0]);
  ((7, 0, 0), ([9;0;0;0;0;0;0;0;0;0;0], [], [18;70;860087151;202825017;999999999;500000000;999999999;0;0;0;0], []), [0;9;0;0;0;0;0;0;0;0;0;0]);
  ((3, 1, 1), ([(-103);0;91;999999999;0;0;0;0;0;0;0], [63;4;1;0;0;0;0;0;0;0;0], [(-9);0;1;0;999999999;999999999;495902305;623268933;500000000;999999999;1], []), [0;(-101);9;0;0;91;999999999;0;0;0;0;0]);
  ((3, 1, 20), ([6;27;0;0;0;0;0;0;0;0;0], [29;0;0;199999;499999998;587802651;0;0;0;0;0], [27;0;0;999999999;1;0;0;0;0;0;0], []), [0;1;0;0;0;0;0;0;0;0;0;0]);
  ((12, 1, 1), ([(-128);41;0;0;0;0;0;0;0;0;0], [], [11;0;0;9999999;750727501;999999;94932355;273220730;500000000;999999997;999999999], [48;57;53;51;55;49;52;51;54;55;50;52;54;53;54;48;51;56;57;57;48;51;54;50;48;50;50;54;48;51;48;54;49;57;56;57;57;53;48;51]), [0;40;0;619899503;620226030;560389903;714367246;953;0;0;0;0]);
  ((0, 1, 0), ([63;18;999999999;924720869;761487302;500000000;0;3;723657624;100000;2], [58;18;999999996;999999997;1000;0;0;499999999;7;582336802;499999999], [0;43;10000;1;475732788;0;500000000;0;0;0;0], []), [(-1)]);
  ((9, 1, 0), ([14;0;999999998;0;0;478238822;0;0;0;0;0], [], [], []), [0;999999998]);
  ((2, 1, 0), ([6;0;7999;0;100000000;711616319;999999996;0;999999999;0;1999], [(-110);9;0;0;0;0;0;0;0;0;0], [12;0;0;0;0;0;0;0;0;0;0], []), [0;1;0;0;0;0;0;0;0;0;0;0]);
  ((3, 1, 9223372036854775808), ([(-47);18;784453305;788028814;1;700000;100000;827390976;499999999;0;557280609], [28;0;553219444;319362386;3;787174671;0;0;0;905274602;100000000], [85;20;931734306;10000000;999999996;8000000;97860780;999999999;999999999;0;0], []), [(-1)]);
  ((4, 1, 0), ([(-93);45;927374824;1;3999;0;0;0;0;0;0], [(-128);0;1;0;0;0;0;0;0;0;0], [(-122);0;999999996;0;0;0;0;0;0;0;0], []), [1;1;1;0;0;0;0;0;0;0;0;0;0]);
  ((7, 0, 255), ([18;45;0;100000;619667885;717418675;499999998;999999999;999999997;100000000;999999997], [], [(-119);11;499999998;0;133728658;0;0;0;0;0;0], []), [(-1)]);
  ((0, 1, 0), ([(-128);23;0;0;0;0;0;0;0;0;0], [36;0;1;999999999;0;732532422;0;0;0;0;0], [102;9;4;0;771673332;0;3;1000;510373292;500000000;999999999], []), [0;36;0;1;999999999;0;732532422;0;0;0;0;0]);
  ((4, 1, 0), ([54;27;0;807242399;100000000;0;999999999;0;0;0;0], [(-110);29;999999996;0;3;0;667406131;0;500000;999999999;3], [65;25;79999;917478197;499999999;611708078;899;475487551;395324707;31506434;0], []), [0;9;29;993352188;501661958;312228256;99999996;121633843;0;0;0;0]);
  ((3, 0, 100), ([(-92);0;743152797;170593517;423288285;0;0;0;0;0;0], [36;39;895474860;999999998;0;0;0;0;0;0;0], [36;0;0;0;0;207147231;0;0;0;0;0], []), [(-1)]);
  ((4, 1, 0), ([(-74);27;827536256;0;0;0;0;0;0;0;0], [(-117);0;0;0;0;0;0;0;0;0;0], [2;62;1;142027159;0;10;0;945882896;0;104396586;0], []), [1;1;1;0;0;0;0;0;0;0;0;0;0]);
  ((1, 0, 0), ([(-119);0;0;0;0;0;0;0;0;0;0], [9;0;0;0;0;0;0;0;0;0;0], [(-14);9;500000002;444231914;498680173;280399924;999999998;0;999999999;135089642;3], []), [0;9;0;0;0;0;0;0;0;0;0;0]);
  ((3, 1, 4), ([45;9;1;1000000;0;100;0;0;0;0;0], [(-122);0;500000001;0;0;0;0;0;0;0;0], [(-121);0;0;714385115;350694231;1;745243824;466818916;824377995;0;414527348], []), [0;(-116);18;995998402;2000799;999999600;199;0;0;0;0;0]);
  ((3, 1, 9223372036854775808), ([35;8;361254784;500000001;448799537;50;0;999999999;859740350;50000;0], [(-118);18;0;825562316;2;88088907;0;0;0;0;0], [81;0;0;0;1000000;0;232876206;0;482490996;137350629;1000], []), [0;(-125);27;147132639;338608880;703206971;572;0;0;0;0;0]);
  ((5, 0, 0), ([72;9;0;0;0;0;999999997;599388517;186854669;951756644;7], [27;34;0;518672161;0;699999;188981560;1;837989288;0;0], [], []), [0;1]);
  ((4, 1, 0), ([22;0;904386648;141893779;96659454;222529419;818322371;0;0;0;0], [36;0;818322372;0;0;0;0;0;0;0;0], [40;9;984541390;2147483647;121188546;4999999;0;999999998;999999999;999999999;1], []), [0;8;0;98092072;0;0;0;0;0;0;0;0]);
  ((4, 1, 0), ([48;0;0;0;0;531146547;0;957690084;0;0;0], [(-128);11;0;0;0;0;0;0;0;0;0], [27;0;397680075;683142346;0;0;0;0;0;0;0], []), [1;1;1;0;0;0;0;0;0;0;0;0;0]);
  ((4, 1, 0), ([(-128);18;999999999;103563887;999939998;948218057;29998;999999999;0;0;0], [54;27;948218056;30000;999999999;0;0;0;0;0;0], [17;0;0;499999998;502930737;448144140;287832118;999999999;989680131;999999997;500000001], []), [0;(-128);27;0;999999999;103563887;0;0;0;0;0;0]);
  ((6, 1, 0), ([36;0;0;0;500000001;890314160;0;0;0;0;0], [], [], []), [0;36;0;0;0;500000001;890314160;0;0;0;0;0]);
  ((3, 0, 107), ([11;14;0;768750388;3;999999999;0;0;0;0;0], [9;9;0;1;0;0;0;0;0;0;0], [(-92);3;0;0;0;0;0;0;0;0;0], []), [(-1)]);
  ((3, 1, 143), ([27;3;577692411;441501507;791227086;603051678;0;0;0;0;0], [68;81;0;0;0;0;0;0;0;0;0], [61;1;0;812714150;595554802;2;0;396264492;999999998;353054844;0], []), [(-1)]);
  ((12, 1, 1), ([(-128);25;999999997;2;751260683;0;0;0;0;0;0], [], [58;18;0;0;0;0;153440120;431920358;2;50000;59896618], [57;48;49;48;51;51;53;48;51;57;56;49;51;57;56;48;48;52;57;57;57;57;55;57;57;51;52;48;46;51;48;55;48;56;69;45;48;49]), [0;27;6;30708000;999979934;981398004;901033503;0;0;0;0;0]);
  ((4, 1, 0), ([0;3;499999999;0;0;0;0;0;0;0;0], [(-119);0;0;499999998;279757088;1;0;999999999;83196370;908697107;3], [0;24;10000000;1999;10;0;0;0;0;0;0], []), [1;1;1;0;0;0;0;0;0;0;0;0;0]);
  ((12, 0, 1), ([18;23;2;0;525548110;794361925;2;0;0;0;0], [], [(-65);18;760241955;100000;10;999999999;1;100000;999999999;499999998;0], [43;54;54;49;56;55;50;55;51;56;54;52;50;52;55;52;54;52;57;48;52;57;48;53;49;54;57;55;48;49;50;57;50;48;51;57;56;48;48;52;55;49;51;56;52;54;50;57;48;49;57;55;52;57;57;55;50;50;48;55;52;56;51;57;54;48]), [0;65;0;207483960;19749972;471384629;292039800;905169701;247464904;187273864;66;0]);
  ((4, 1, 0), ([27;17;209150618;441694257;39955725;431507288;801702705;433335238;0;0;0], [12;7;999999999;692922668;0;0;0;0;0;0;0], [0;0;0;0;0;0;0;0;0;0;0], []), [0;9;17;209150618;994211418;328520283;0;0;0;0;0;0]);
  ((3, 0, 18446744073709551615), ([17;19;3;999999999;0;0;0;0;0;0;0], [0;26;1;0;0;0;0;0;0;0;0], [18;9;999999998;59999;59296926;0;0;0;0;0;0], []), [0;18;36;0;0;0;0;3;999999999;0;0;0]);
  ((11, 0, 0), ([(-119);0;0;0;0;0;0;0;0;0;0], [], [], []), [0;45;48]);
  ((3, 0, 9223372036854775808), ([9;6;0;0;0;0;0;0;0;0;0], [9;(-43);10;999999999;512862009;999999997;850909953;0;1;0;0], [72;81;20;876675740;999999998;130255607;453675542;0;10000000;662640255;192296996], []), [(-1)]);
  ((3, 0, 9223372036854775808), ([117;0;21548436;244612890;0;0;0;0;0;0;0], [7;8;499999998;0;0;0;0;0;0;0;0], [36;0;0;0;0;0;0;0;0;0;0], []), [(-1)]);
  ((8, 1, 0), ([9;13;0;1000;0;0;0;0;0;0;0], [], [], []), [0;0]);
  ((11, 1, 29), ([24;21;0;0;0;0;0;0;0;0;0], [], [], []), [0;48;46;48;48;48;48;48;48;48;48;48;48;48;48;48;48;48;48;48;48;48;48;48;48;48;48;48;48;48;48;48]);
  ((3, 0, 9), ([9;8;500000000;218306278;100000000;934144443;0;0;0;0;0], [51;15;1;0;0;0;0;0;0;0;0], [(-116);6;0;0;0;0;0;0;0;0;0], []), [0;27;36;0;0;0;0;0;500000000;218306278;0;0]);
  ((2, 0, 0), ([63;0;500000002;0;0;700000;321855713;999999999;0;0;0], [(-101);0;0;0;0;0;0;0;0;0;0], [9;12;0;1;1;0;0;0;0;0;0], []), [0;1;0;0;0;0;0;0;0;0;0;0])].

(** Every case agrees. *)
Example model_agrees_with_port : forallb ok cases = true.
Proof. vm_compute. reflexivity. Qed.
