(** The table of the powers of five, and the gaps between the products with it. *)
From Verif Require Import Base FloatTable FloatModel FloatSpec FloatProofs1 FloatProofs2.
From Coq Require Import Qpower Lqa Lia Znumtheory Zpow_facts.
Open Scope Z_scope.

(** the exponent of the entry: [5^q] is about [phi q * 2^(tq q)] *)
Definition tq (q : Z) : Z := Z.shiftr ((152170 + 65536) * q) 16 - 127 - q.
Lemma power_tq q : power q = tq q + 190 + q. Proof. unfold power, tq. lia. Qed.
Definition phi (q : Z) : Z := let '(h, l) := pow5_entry q in h * 2 ^ 64 + l.

Definition all_q : list Z := map (fun i => Z.of_nat i - 342) (seq 0 651).
Lemma all_q_in q : -342 <= q <= 308 -> In q all_q.
Proof. intros H. unfold all_q. apply in_map_iff. exists (Z.to_nat (q + 342)). split; [lia|]. apply in_seq. lia. Qed.
Lemma all_q_check (c : Z -> bool) : forallb c all_q = true -> forall q, -342 <= q <= 308 -> c q = true.
Proof. intros H q Q. rewrite forallb_forall in H. apply H. now apply all_q_in. Qed.

Definition near_neg (q : Z) : bool := (-27 <=? q) && (q <? 0).
Definition check_entry (q : Z) : bool :=
  let '(h, l) := pow5_entry q in
  let p := h * 2 ^ 64 + l in let t := tq q in
  (2 ^ 63 <=? h) && (h <? 2 ^ 64) && (0 <=? l) && (l <? 2 ^ 64) &&
  if near_neg q then (cmp_num (p - 1) t q <? cmp_den 1 t q) && (cmp_den 1 t q <=? cmp_num p t q)
  else (cmp_num p t q <=? cmp_den 1 t q) && (cmp_den 1 t q <? cmp_num (p + 1) t q).
Lemma table_entries : forallb check_entry all_q = true. Proof. vm_compute. reflexivity. Qed.

Lemma entry_facts q : -342 <= q <= 308 -> exists h l,
  pow5_entry q = (h, l) /\ phi q = h * 2 ^ 64 + l /\ 2 ^ 63 <= h < 2 ^ 64 /\ 0 <= l < 2 ^ 64 /\
  (near_neg q = true -> cmp_num (phi q - 1) (tq q) q < cmp_den 1 (tq q) q <= cmp_num (phi q) (tq q) q) /\
  (near_neg q = false -> cmp_num (phi q) (tq q) q <= cmp_den 1 (tq q) q < cmp_num (phi q + 1) (tq q) q).
Proof.
  intros Q. assert (C := all_q_check _ table_entries q Q). unfold check_entry in C. unfold phi.
  destruct (pow5_entry q) as [h l]. exists h, l.
  rewrite !andb_true_iff in C. destruct C as [[[[C1 C2] C3] C4] C5].
  split; [reflexivity|]. split; [reflexivity|]. split; [lia|]. split; [lia|].
  destruct (near_neg q); apply andb_true_iff in C5; destruct C5 as [C5 C6].
  - apply Z.ltb_lt in C5. apply Z.leb_le in C6. split; [auto|discriminate].
  - apply Z.leb_le in C5. apply Z.ltb_lt in C6. split; [discriminate|auto].
Qed.
Lemma phi_range q : -342 <= q <= 308 -> 2 ^ 127 <= phi q < 2 ^ 128.
Proof. intros Q. destruct (entry_facts q Q) as [h [l [_ [-> [H [L _]]]]]]. lia. Qed.
Lemma entry_far q : -342 <= q <= 308 -> near_neg q = false ->
  (B (phi q) (tq q) <= p5 q)%Q /\ (p5 q < B (phi q + 1) (tq q))%Q.
Proof.
  intros Q N. destruct (entry_facts q Q) as [h [l [_ [_ [_ [_ [_ H]]]]]]]. specialize (H N).
  assert (E : (p5 q == inject_Z 1 * p5 q)%Q) by (change (inject_Z 1) with 1%Q; ring). rewrite E.
  split; [apply cmp_le|apply cmp_gt]; lia.
Qed.
Lemma entry_near q : -27 <= q < 0 -> (B (phi q - 1) (tq q) < p5 q)%Q /\ (p5 q <= B (phi q) (tq q))%Q.
Proof.
  intros Q. destruct (entry_facts q) as [h [l [_ [_ [_ [_ [H _]]]]]]]; [lia|].
  assert (N : near_neg q = true) by (unfold near_neg; lia). specialize (H N).
  assert (E : (p5 q == inject_Z 1 * p5 q)%Q) by (change (inject_Z 1) with 1%Q; ring). rewrite E.
  split; [apply cmp_lt|apply cmp_ge]; lia.
Qed.

(** ** Small powers are exact *)
Definition check_exact (q : Z) : bool :=
  if (0 <=? q) && (q <=? 55) then
    (cmp_num (phi q) (tq q) q =? cmp_den 1 (tq q) q) &&
    (if q <=? 27 then let '(h, l) := pow5_entry q in (l =? 0) && Z.even h else true)
  else true.
Lemma table_exact : forallb check_exact all_q = true. Proof. vm_compute. reflexivity. Qed.
Lemma entry_exact q : 0 <= q <= 55 -> (B (phi q) (tq q) == p5 q)%Q.
Proof.
  intros Q. assert (C := all_q_check _ table_exact q ltac:(lia)). unfold check_exact in C.
  replace ((0 <=? q) && (q <=? 55)) with true in C by lia. apply andb_true_iff in C. destruct C as [C _].
  apply Z.eqb_eq in C. apply cmp_eq in C. rewrite C. change (inject_Z 1) with 1%Q. ring.
Qed.
Lemma entry_low q : 0 <= q <= 27 -> exists h, pow5_entry q = (h, 0) /\ Z.even h = true.
Proof.
  intros Q. assert (C := all_q_check _ table_exact q ltac:(lia)). unfold check_exact in C.
  replace ((0 <=? q) && (q <=? 55)) with true in C by lia. replace (q <=? 27) with true in C by lia.
  apply andb_true_iff in C. destruct C as [_ C]. destruct (pow5_entry q) as [h l].
  apply andb_true_iff in C. destruct C as [C1 C2]. apply Z.eqb_eq in C1. subst l. eauto.
Qed.

(** ** Large powers: no product comes close below a multiple of [2^137] *)
(** two numbers of each lattice, found with the Euclidean algorithm; entries in the order of the table *)
Definition gap_numbers : list (Z * Z * Z * Z) := [
  (8401500023913039231, 10881729857434392911681, 12770164887588248800, 4197237067371592434912);
  (5847467046395389471, 7323542994175546353113, 14584796773745808609, 11528442160479691737305);
  (9933919810423629087, 8105687431096002502615, 16345811056112958464, 4200812713540117144576);
  (9229514097476769145, 5035984530510080167676, 15641405343166098522, 10342331731850802394280);
  (14767222555962830632, 5028600919232098752360, 10103696884680037035, 8357503379790371577821);
  (16787961932898838039, 4208966275542204674524, 8082957507744029628, 8351441161659563555600);
  (13803597696765537701, 19892852724688203513817, 6590775389677379459, 3123479011944230609169);
  (5645848462188370837, 8239983793686360423619, 15693451551743554945, 7954656542932396949641);
  (14430387234725452663, 18614902945291483184803, 6277380620697421978, 3975758926311024119326);
  (1630601322805606137, 5647257817569925424498, 16956515868761657227, 48121361100025445141098);
  (7956986877608028629, 3865541796524786843077, 10826150050379236791, 16636402495629655380985);
  (7956986877608028629, 4829937998936581546689, 15026509542389812336, 12774617326490465990992);
  (11317274471216489065, 14069502785083337344597, 9193398567999136386, 3965444614850942869862);
  (18107639153946382504, 14067239330189094046784, 11456853462242434199, 721147142829202429864);
  (2660314276681579322, 7394193236509148238324, 16262921232780920093, 20288350948345876670470);
  (6444961378574079205, 6015979636987966150266, 15138588407569999532, 12901727006040513431912);
  (10311938205718526728, 6013401652436536518584, 13849596131855183691, 8819039232431780459651);
  (17914164299604305550, 4615061403513815624438, 6247370037969404869, 8116067994923477123167);
  (14331331439683444440, 4625809902093578207768, 13413035757811127089, 7827494515079080246423);
  (9517094545682384015, 9512045789926951871773, 13413035757811127089, 4900567219273057108445);
  (7613675636545907212, 9513949208836088348576, 13413035757811127089, 6122355765151868603784);
  (362863103056137467, 6287563545706011325234, 18117357042274954970, 166207414509823943315076);
  (17039086977319309921, 8963684007373442829876, 10875573847471356658, 4503725146663094413784);
  (6163513129847953263, 8414048964707911800656, 13702810278045398695, 9560854984565818579504);
  (15067588315304986265, 18659976253943629843029, 5481124111218159478, 4774946368171691130274);
  (3013517663060997253, 4664240684070142211444, 15897461118750643406, 33208694333109958233736);
  (14132935661314523958, 28118130022744936695092, 4987602821586727033, 2404490336523234813442);
  (11804272211119013451, 1625331384614515350254, 8146139075227894681, 13637807861587515963398);
  (13267525465475460959, 9669867616601897575123, 10341018956762565943, 5594734882854490186037);
  (12955225579350684780, 12465615654831723832544, 10341018956762565943, 3498001929153651687016);
  (18114154304372976811, 4976709329681728265638, 7749973840892428987, 7488906325149995566906);
  (18114154304372976811, 6211829584949973843642, 13445640794463133914, 5007274480706363001044);
  (5490236264838532521, 3582627273599040574757, 17554254569106582034, 20278584619311098161654);
  (17352046892565107173, 22082787692700075993716, 4608898166789022911, 4175141560969711652452);
  (15236835457246284109, 1647325334168186778841, 9217796333578045822, 10437853902424279131130);
  (7298542007632161301, 1921566420365150913294, 12416553543487853357, 20602106470093576089314);
  (14597084015264322602, 4811214592920509444536, 6426329818921573603, 9817448465046039529532);
  (1983035714752784879, 9768693645244784369417, 16818731067348716964, 5006233872125530084996);
  (12867488641063129009, 6665443929301713867988, 11868556282076745668, 7391914467290936006832);
  (10094204441053226539, 3151104330153551399283, 9095272082066843198, 14420593665587260944242);
  (12312831801061148515, 9128815618016326046192, 15751154162090609126, 2471826971941735416352);
  (6411943079819458201, 11814809427731951437186, 13288587801878379423, 2685993809715625390994);
  (5222494792303459165, 5233295014040917641262, 16132186019149840516, 17194863140172777139432);
  (1044498958460691833, 1308846002989459756232, 17526290945868229579, 144840121463351275046568);
  (8355991667685534664, 6544230014947298781160, 16457045274086224645, 7961458659750596270023);
  (16966921396655914011, 42668731669075575264826, 3291409054817244929, 1991187517201353378738);
  (13925893254746366575, 2695469901836107117967, 13165636219268979716, 9962520404116401383548);
  (5570357301898546630, 675956359447238734478, 16455222414735365769, 29280268892369151763403);
  (4456285841518837304, 674842287986859025152, 14227079493975947117, 36941871065058553058272);
  (17825143366075349216, 3374211439934295125760, 13540501918440398953, 7210940902304061189112);
  (12271627083592080002, 17564834233324682035188, 9838157730118219477, 115629505608867734398);
  (1946775482779088420, 8839745175596080112688, 17242846106762578429, 11199137430371243918596);
  (1557420386223270736, 8839745175596080112688, 18021556299874213797, 9579049200166014841901);
  (4538763491708805201, 4236181272528483575341, 16464135913650943061, 23019376935724205957471);
  (15538594005378743289, 23456958480495597404834, 6923837976097232773, 760196960448296111110);
  (4830670006932050761, 11920943815363338755575, 13847675952194465546, 1893568563144643045002);
  (15071543581021550393, 19445243140422615926103, 3606802378104965914, 6906354488659464658810);
  (15071543581021550393, 12147625133921251872417, 8785192521172255541, 4478993543302077263875);
  (17328350377520593639, 8784047888850313776101, 8785192521172255541, 5600938227257889643729);
  (1660224638304884131, 8593142671028150341880, 17570385042344511082, 13997952971884137981552);
  (4510211791451832695, 1472684380150039130511, 18289685433723755817, 32656922694090477795823);
  (902042358290366539, 367945584447937190993, 18134157879182664389, 185747583807210281385505);
  (3608169433161466156, 1840629964597976321504, 15172973761953224577, 40545973357195086984344);
  (5625011887196873859, 7829191616546350355299, 17615331690897981530, 6455233410102819103078);
  (5625011887196873859, 9790708279598335599518, 14092265352718385224, 6444664211088280314160);
  (18023826546810956810, 8232386295035817606712, 12398814659614082951, 4003186548518503455756);
  (9229777196559065221, 8671666425502648332271, 10378568081779400454, 9125365617206927823278);
  (9229777196559065221, 10841890476177450181644, 15686676222670772540, 449777522648611797872);
  (12367112441093219729, 13439918714559659777587, 12549340978136618032, 449777522648611797872);
  (12367112441093219729, 8401495085654924013458, 10185255612144013068, 7168463722976923685032);
  (18186700149110190285, 22496689154286595967939, 6547524733076249173, 1480584327708192714565);
  (13822204792720325287, 9387247513913516846798, 13095049466152498346, 3711282106370096160172);
  (13822204792720325287, 5863574144997767947927, 9894315311667737124, 8407379442154771517852);
  (10272185937965742597, 2303539887663107388430, 16616482394878897031, 13234558125725248996486);
  (10272185937965742597, 2874288766609901364239, 9184311540716820586, 14390920225327161100994);
  (16217922621295403753, 718164882945430481554, 15130048224046481742, 10072726721314889674468);
  (3678734283158649555, 5573147655724938373622, 17720908109956209286, 20513396338157472694356);
  (2942987426526919644, 5574619149438201833444, 16985161253324479375, 27026539756001413221663);
  (15168981956772574451, 10552542035861538215483, 6794064501329791750, 6759182713188351977322);
  (16527794857038532801, 11513277712672613674624, 5435251601063833400, 6755106274487554102272);
  (16527794857038532801, 14391597140840767093280, 4348201280851066720, 6755106274487554102272);
  (15658154600868319457, 19678272994672847392168, 3478561024680853376, 6755106274487554102272);
  (17398361111169641998, 16447481314626524069694, 1738354514379530835, 8370502114510715763509);
  (18138150819044455276, 391941450272324342484484, 347670902875906167, 2092712446353397917419);
  (18311195039071598221, 112789983192374371924392, 695341805751812334, 5231607280432056840464);
  (18357340164412169673, 7636845464278012903573, 7973358203475556115, 6173730312627423766249);
  (15167996883021947227, 12629129987440472525784, 6378686562780444892, 6175324984268118877472);
  (11652272754925346293, 6384184998446294955602, 16273097253657490718, 6036084974816001492052);
  (13500602554418204063, 881672980074755684322, 7393319197971431080, 12422118303061789305424);
  (12021938714823917847, 4213631770216303890682, 17936594073201062711, 8205529205166296842310);
  (8396094300569779681, 59631630966862624604, 10684905244692786379, 20674781311743128916876);
  (16792188601139559362, 66143444408008501074, 6868705335640273167, 10348278962410242423097);
  (7938786612399428956, 10412437710165151066932, 14807491948039702123, 2524628169181562030231);
  (1801773577831716949, 8440935768313711736994, 17340957826943980232, 15457358809071539132336);
  (11981349148706399550, 10904302554993934156768, 10764929411732731529, 4744083814715546390384);
  (9585079318965119640, 10913887634312899276408, 13161199241474011439, 3190867930404475437349);
  (7668063455172095712, 10911970618449106252480, 11244183377680987511, 6719867867428239362666);
  (2352001397567059925, 4931384464997553000032, 16656481087602627121, 39151787869618319929632);
  (1881601118053647940, 4931384464997553000032, 16656481087602627121, 48939734837022899912040);
  (1505280894442918352, 4931384464997553000032, 17409121534824086297, 58708976313779848390034);
  (7696610811404988645, 1293224927226087948463, 11047585278671619119, 20780258105098386991475);
  (6157288649123990916, 1288606960739244955276, 17204873927795610035, 24695001359592742498407);
  (8873602512688859825, 9397486142374470227748, 15755552083807103839, 2948294050029121460452);
  (7098882010151087860, 4702292512192310657804, 15538619644774259993, 14249770162885293701785);
  (5679105608120870288, 4698033182986220005088, 15538619644774259993, 17823866668340197822226);
  (16800714010491447329, 40389991160431159119590, 1971902807330677941, 5629489011427939117858);
  (5726426170895102995, 828063743025664327304, 15775222458645423528, 28143501251525034233408);
  (1145285234179020599, 207015935756416081826, 18434765701599890751, 148791127752125398358254);
  (4581140936716082396, 1032789108313722367932, 14223577294766967661, 34824210465479948132395);
  (18324563746864329584, 5177688964378760086848, 1928487271610177053, 8962803527994709992292);
  (11380435702440633161, 815592702791475966951, 12729589859254227582, 14396848727825679578590);
  (11380435702440633161, 1022335987414955116979, 14735846168379635330, 13985368414887846686282);
  (11380435702440633161, 1280765093194304054514, 11788676934703708264, 13982421245654170759216);
  (18127048877452398037, 3184131623331000306721, 408241232263075103, 9539593522088362527357);
  (14419990855509303409, 5565425006139213612708, 14828232087772378512, 6359168956779305315264);
  (11372696191502212686, 11527721987598473076694, 11780937423765287789, 3378020466049675583271);
  (9261453446107000190, 2036267698706435998332, 14708662633686650491, 15577878579308597596234);
  (7409162756885600152, 2039972280084878798408, 14708662633686650491, 19464993892818903670047);
  (17825855768559260290, 17896842530691106843728, 5905397629491570159, 3844785983754913625768);
  (16710573970711676146, 22702825010384748875938, 5905397629491570159, 2402991239846821016105);
  (4523194320040649261, 5073827644054471802643, 14575201877884982114, 22168516884972540255970);
  (12866067879666424797, 8414113316876578999475, 7639358479170252550, 8545434780839241663526);
  (14393939575500475307, 4185243748102143988491, 12222973566672404080, 8550018395926743815056);
  (11949344862165994491, 7366071947893824440755, 9778378853337923264, 8552462990640078295872);
  (17378566246958493107, 38919577988960285320060, 4345544743100783551, 293338602129237876116);
  (13903575542655722705, 14441220657024160195612, 6953594134050181901, 5308431948880917570132);
  (18076454568174760065, 7805680720923013232947, 6953594134050181901, 6635539936101146962665);
  (3615290913634952013, 1952324002959162046240, 16968503795295871565, 39027718095249170770144);
  (14461163654539808052, 4880810007397905115600, 10402692431753300639, 8536727021962816413636);
  (3703926975465263093, 4574586759189656661209, 17101457888041338185, 25916404314096697695299);
  (17952364081612324553, 4209962462974072875299, 10544510130681798367, 7232060325463266672363);
  (12252989239153499969, 3010520395824838959191, 8836031022210096765, 12047959675121251850053);
  (15669947456096903173, 22574498122871589533164, 3534412408884038706, 6026630646867288954056);
  (9095508909545992234, 5260618414568505812526, 11616579272541073529, 12436267409883969478877);
  (16678375601294935691, 13214189999330472366895, 2016856290396065036, 8848190805189938137572);
  (16678375601294935691, 16513567905262766724696, 4949160152575839167, 5545880595395464005640);
  (16312196572581452053, 12370469655288750172519, 4949160152575839167, 6927401584091754167883);
  (14221530149948309284, 22749128192545176653720, 4949160152575839167, 4333956505190850214198);
  (5813802121535165357, 2439721570303924085460, 13982838488768191311, 24099605775953023478116);
  (11627604243070330714, 6099303925759810213650, 16057979214270574167, 6560429354792682546773);
  (7862637540082247119, 1415441602336796155471, 16390683348376654096, 19207869622833892816624);
  (13886584264863180871, 7093380894340227468752, 17563965895465807605, 3574433482348442697872);
  (13886584264863180871, 8866726117925284335940, 14051172716372646084, 3574433482348442697872);
  (11175102792494330782, 2657321420580915149816, 11339691244003795995, 12893963491309734177236);
  (4371288046092053185, 6493876553081176258506, 18143505990406073592, 12903035244304937214032);
  (3497030436873642548, 6495625068299613079780, 15520733162750841681, 20991441103610678290579);
  (8699395331547996413, 7741215011863669587812, 12110064247149419047, 9250983275470182992916);
  (9075006831617026642, 10049423327315406822720, 12110064247149419047, 5787919579292439080096);
  (18089682833273752138, 169045278118969152136858, 607011483106478481, 3958728715168854997223);
  (8109821541642691187, 5641051459044968637105, 10537867474068605111, 14153199128282412827491);
  (10868140971814584877, 7411559867701747063651, 10537867474068605111, 8844432221742249441543);
  (6454829883539554973, 1489830756002656505210, 14620905064597655249, 23616718111569383016734);
  (14807093601487513814, 17775085626596061286114, 5506112966335353039, 5156511093407849825059);
  (7440784508121728620, 11466728458065470771664, 12872422059701138233, 3577580224001860750148);
  (5952627606497382896, 11466728458065470771664, 12872422059701138233, 4471975280002325937685);
  (9911070909078361610, 9233218585791577393224, 12872422059701138233, 5586750994487982137548);
  (15857713454525378576, 9225289729064314703936, 12872422059701138233, 3498155582584839405084);
  (13880287321549998998, 15587012384888891758446, 10894995926725758655, 317294254672550877829);
  (16299163949987264834, 79375110443433428191086, 2178999185345151731, 77689314279128855659);
  (8053630997756786775, 9812045886671217552314, 17431993482761213848, 394983568951679733488);
  (1610726199551357355, 2453816834767580066756, 18184735545401420032, 80462192570355438375936);
  (1288580959641085884, 2453816834767580066756, 17218299825670605619, 102418103339019983019987);
  (10308647677128687072, 12265218430958977076128, 10917429531052419251, 3911270927419164792727);
  (17224374508114377930, 270008917977769943456, 13222671808047649537, 9907723062771270743920);
  (13779499606491502344, 270008917977769943456, 6332922004801898365, 12519658287452973401628);
  (13626570802418828285, 17545228007318841442416, 5066337603841518692, 6262362312528407460160);
  (2725314160483765657, 4386307001829710360604, 17540036254882309111, 35698118564471747661404);
  (10048761236137499399, 4244440125607331665860, 9196265830339936170, 13453556014575823533928);
  (6370254904001524931, 12032328164297076349289, 13727267568273473867, 1421227850278747184639);
  (13529916016219389066, 2299159355436922918636, 7554364216326033737, 11593263735941961439890);
  (3901093563222548879, 4045945064922340544851, 15108728432652067474, 28990713704071229633462);
  (10043714100331001477, 1853187041532376067180, 14526768048102808915, 14666263106451351973836);
  (8466013762179755822, 9653848362022235948804, 15854421319572125043, 2500396664995316888950);
  (13330100778530131995, 13849008326395259634971, 6126247286871372697, 6705284803401041327463);
  (2666020155706026399, 3461585576559888402143, 16506928680367411591, 43917306993971743216441);
  (17164690545744819593, 5766926508527823712257, 13001219845841427994, 5782072926210912665398);
  (18421432628801173675, 53407623725299069334093, 1767549829187607279, 4333209977694709162583);
  (14438772368270898586, 5041371667268056578778, 10754485842510663851, 8311455335688150813429);
  (15175629673422945533, 4810475898866171944804, 9280771232206569957, 8538666817564275212668);
  (15175629673422945533, 6028270503256137876538, 4389491051080666859, 9736896301229737532010);
  (13896300159170623170, 1152874202561683798948, 18285791210251290029, 11020440919501028449494);
  (17844589203592330213, 8756735006549980871671, 4389491051080666859, 7609419324051965321991);
  (8015733891653065457, 2478016605734912371702, 16794715993814399175, 16543336958869460599846);
  (16031467783306130914, 6203057248228933994712, 14733620289178825127, 5166780912121500422732);
  (14642160718423132833, 13042815934061885546203, 12046465730168521259, 1168183918882030169815);
  (17943396546549574044, 55680301342030270087768, 1890154148382781937, 3844323404419390775974);
  (17000933044975553947, 48961235850818824006787, 1890154148382781937, 4804459178450047078999);
  (7934465707019890741, 10433677729719050915359, 15495082300551018489, 1582195601777023736981);
  (17306284910048254433, 17472164797347339296996, 1437353496008472951, 8615996759803797936772);
  (16144793521652160268, 240171277739743423452, 17582147017660633219, 10529824672015003997513);
  (6170446709459169517, 1405521007315596887294, 18090307402952230838, 24114666536503679014300);
  (7488742596436058963, 9194833271884230779468, 17193044241400619105, 2154887341887328003964);
  (7488742596436058963, 11493541589855288474335, 13754435393120495284, 2154887341887328003964);
  (17942893471861276889, 34657854715565467707075, 4004025637960986321, 1975915037408488183573);
  (17557535287857810568, 32686329061978943976144, 4004025637960986321, 2468892790351119982886);
  (14230260263472899605, 10781040622567715576776, 8008051275921972642, 6176236001515760943536);
  (11384208210778319684, 10781040622567715576776, 10854103328616552563, 5025034846252772285226);
  (14827280593689871287, 29815427416405535025013, 4235620355014267601, 3233077050254507620957);
  (9742448686760802419, 990138365764058714944, 16942481420057070404, 16161149630917523837184);
  (6862435593442295225, 9813316955545864669744, 12622461780079309613, 7337971041135717882384);
  (18112410254833145793, 320426577063108658382, 7132513305325473433, 9492890378482756011362);
  (18112410254833145793, 409589426456302395874, 9328492695227007905, 9408119487869365342814);
  (18112410254833145793, 502930577942961421946, 7462794156181606324, 9411850884947456145976);
  (11924344875639512727, 11025415415047069530244, 6825429767687619695, 8299942204013816210396);
  (17665488524732524250, 100776759197311336808398, 1365085953537523939, 2074985551003454052599);
  (18227648680398591217, 93000120293218483758956, 1365085953537523939, 2593390667265933184764);
  (12382079838719871453, 1257643407507937666540, 10920687628300191512, 12961492992515515828064);
  (3060972851911846267, 7423979051888711163937, 15581241121704204105, 19127828636896289325461);
  (15360139631988225889, 32326417995495492318903, 3116248224340840821, 4784294345392327961981);
  (14202080938138280847, 7332786622566679802290, 13044022244288335805, 5532677949689327510026);
  (15360139631988225889, 25255494063344353006202, 5217608897715334322, 2763730170395806087852);
  (11420202162742180093, 792123276125847165893, 9450233428119157195, 14600338910309446936509);
  (13390170897365202991, 10106997057289860040815, 7560186742495325756, 7304894571868783046852);
  (2331993661947950894, 8707694809825782507004, 16286370315964626959, 13897048744645323374994);
  (17700600640201809215, 26576066082955482218914, 2790875330803335213, 5652581326283178138106);
  (7080240256080723686, 6645786580802890735650, 14703621451253702695, 10805769149975696642227);
  (16558063863319932588, 44038841569955980303624, 2940724290250740539, 2700707106421361475422);
  (10957495927315911919, 2226933548655912324825, 11762897161002962156, 13509416980687308858188);
  (8282756001640499393, 7011492189331048918770, 18176314470655099260, 5648057833942193928904);
  (8282756001640499393, 8768506614664631398159, 14541051576524079408, 5640787308153931889200);
  (17817171118257714789, 18323397348736502102255, 2503318229953432006, 7204021131851793285678);
  (1560779639688797353, 5892630331972920505290, 16904986560249861342, 47802863004974854006964);
  (6814712519365326445, 4250610305422135224584, 14201018999340789923, 16708199184318819257992);
  (1362942503873065289, 1062652576355533806146, 17278743385044266311, 114357920635904576668194);
  (10903540030984522312, 5310536996769922900152, 13268934704894923343, 9516120719564393686703);
  (6069045083808633181, 7691084437931973480123, 13268934704894923343, 11891833665779268377543);
  (6069045083808633181, 9615372808685919008449, 14256574814201118583, 6119956193626737987805);
  (10557865992727353978, 6552755245374368176052, 14256574814201118583, 7653509385736972764402);
  (15937539635391437509, 20617441224031535683585, 2958967057179011684, 7103872057319965223148);
  (10746110604106467179, 11919204472316749001499, 11109363145642993698, 3890691480264930359230);
  (17339077983184958094, 15929126198846862083110, 4516395766564502783, 5898948827219526145493);
  (11306725943223875413, 5234640380422229528553, 8274813396430715617, 11577966970762141586267);
  (15223033811154793619, 4953663069490020197858, 15665231471723672824, 6347242898207842975920);
  (18329851722722297021, 399449351993238225345052, 176879064227551682, 5650364544316817811048);
  (17754691287125852465, 14882176156256746339391, 6389907933648755307, 4456784693861417640859);
  (7101876514850340986, 7442863547257085754942, 16330754124722681107, 7417335007058176847023);
  (15054553467709481626, 7459391455723467579308, 8378077171863540467, 7421622622814938188886);
  (4346205952711084557, 2793637243270911939577, 16127484876609823640, 29720227452949129690056);
  (17384823810844338228, 13963840010401848613328, 7571702928033049285, 3939903234880650760364);
  (18111901180015968029, 45744333921926411124321, 3028681171213219714, 1969951617440325380182);
  (6045325172973769377, 4732310265874016979277, 18184124196731988335, 14585097034246857099901);
  (6045325172973769377, 5919921826222251551129, 14547299357385590668, 14574186559728817906900);
  (15944250879751333490, 33922755435144603100158, 4118524906071872009, 2164595814603159556945);
  (10496225257972405405, 7123880390187436399922, 16474099624287488036, 5417667323867006700376);
  (4198490103188962162, 3564039440145312681042, 18253483887413608505, 26001832250551823646551);
  (12047676983860646025, 2406628618479360629461, 7301393554965443402, 13002741473664653184126);
  (14384425015983719443, 10832372563702690983292, 4891858158193314197, 8428153480620102483036);
  (15421026539341626912, 2404219083082588500256, 16457628062699534381, 8732027538463186728603);
  (5961090311065069271, 3984680924349971790025, 13995383668845953480, 19871773005926173445832);
  (6324027154591757150, 9946422896736036190058, 14358320512372641359, 4966873669695722413931);
  (5059221723673405720, 9947687702166954541488, 15623125943290992789, 3718080581449821221702);
  (17646814632760355077, 335066531587580921155, 13599437253821630501, 9614644859268842982621);
  (14052544111792754913, 16204894622548214175688, 9778613303868468131, 1121730954500660818088);
  (3665294983943408339, 8382880049899272292366, 15891931623793527923, 11187207436150924337586);
  (17844958276555594013, 3491755130311079971061, 14179663292612185674, 6988677579554982098566);
  (7871042307410919273, 4371889024352613692392, 16282536954345941141, 13090912644083229209400);
  (18405222613160394293, 341179419289306940218013, 216180935809641038, 5458672673197114148546);
  (6231979565185843107, 4777874897778004902673, 13328682873610250366, 17737829751365370578422);
  (6231979565185843107, 5973901617113802589118, 14402134037999706157, 14150823044522366974878);
  (12463959130371686214, 7464261031609660314844, 12768103143436933547, 6331865845907817397186);
  (7539204280836061195, 2145394452187457777528, 17997002006037805899, 17987827170100438204040);
  (3015681712334424478, 1075712907806063313242, 16392072881901852691, 51925707821978431434375);
  (6974903245556672687, 8777475269740883054022, 17150550453118723137, 3395895048998232063334);
  (11045162128581492867, 4879636346742255512416, 8140517766049640360, 12177440577622139937536);
  (12673265681791420939, 3055185289022284406136, 6512414212839712288, 12177440577622139937536);
  (16440089111940046857, 4195467200097266347561, 2745590782691086370, 9896876755472176054686);
  (17538325425016481405, 291511041029240786757, 2196472626152869096, 9897425873628714271960);
  (3507665085003296281, 75508509071062668900, 15801220674618068946, 49329522932122987414712);
  (3507665085003296281, 45438985626912519922, 16162023858380339983, 49460305271292654421666);
  (7015330170006592562, 117105129152284596086, 12778606696358069299, 24621525614637595006359);
  (14281071068744208289, 6510267058883438591920, 13780249611282161959, 5917726082952009018928);
  (14080742485759389757, 961918626343287217238, 13279428153820115629, 11466074515492160393610);
  (5952822727079465554, 6691979472725827681266, 13279428153820115629, 14339232858442110549827);
  (14836287624855191138, 6210633444324386289834, 10348785983123855599, 7411022103964450035637);
  (6832015378288343563, 3254511302694915070197, 16210070324516375659, 17779338606426649794923);
  (7689210540358074569, 10955779559631582107767, 11949640432437225114, 5632170590410300520986);
  (7689210540358074569, 13696646752174567153351, 11097554454021395005, 2890451311888899645293);
  (17597931971520428139, 16752902801742776325475, 8878043563217116004, 1448554922280656241148);
  (10622021244877778431, 2747637294088696174044, 14268131763112907154, 12711415068891022205816);
  (665960041681504197, 8416435505012033233441, 17914242281348035877, 35213084289838425732095);
  (665960041681504197, 5260188945627310582876, 18273810999925391930, 117275614690080740432136);
  (6984562408392599371, 3557277237650506034941, 18289847058451781325, 15629113015185034809557);
  (6984562408392599371, 4448342687665230693519, 14631877646761425060, 15625455045773344453292);
  (6984562408392599371, 2779341109489720108528, 16426441826425680725, 18407722530792416846832);
  (13969124816785198742, 6948352773724300271320, 13555139138962871661, 5729684878534058287756);
  (16597355509013307658, 4083510334457271127442, 13555139138962871661, 7162106098167572859695);
  (12669441133200558927, 1268938866017759990926, 9627224763150122930, 12787321120670782383996);
  (10743996180570534341, 2388815932299805158743, 15403559621040196688, 12791172010576042433168);
  (17475367748839096875, 12969198661049695177346, 4012624612301971807, 6991786832209897013318);
  (13980294199071277500, 12976188808149230816096, 11002771711837610557, 2249632823881604872696);
  (181463647419411443, 7894114919000618453483, 18376270475286992254, 160694339409864375160530);
  (17894776574811235200, 12971715114005528007296, 8765924639986206157, 3381740725836154210345);
  (15923835269910700237, 2262662608525048915776, 17531849279972412314, 8449968852270392422784);
  (1255150241908085555, 8317306421662212118392, 17884713048126038836, 20293931617328358219232);
  (502060096763234222, 4158653210831106059196, 17946292661157262791, 198367018027825160649538);
  (8810683538569088467, 4466331892078804062930, 15613126690085240046, 11859598149804395701676);
  (8810683538569088467, 2793660103433894811448, 17932455873281113300, 14088280981875477454816);
  (17621367077138176934, 6984150258584737028620, 15983665887881533787, 3552065361645370213098);
  (14752174137413198806, 12244881981631084050076, 13114472948156555659, 924568693061921680498);
  (11146658834227901786, 2827291657433733616948, 13444585872828566385, 12220057006621028416222);
  (13835576008793615063, 486018108141306724661, 10755668698262853108, 12214679172271896989668);
  (1231962924212304782, 6350656630937654933360, 18431430085994944261, 46407961673674748381016);
  (6642997035308520329, 3724989737197138852413, 16716284747535643060, 16853324205899719257148);
  (13285994070617040658, 9309152844475192870868, 13329510934322777553, 3773757309187016757446);
  (18434334628261281951, 3081412347697043613436543, 17406745482294758, 6541446373458363666778);
  (15913601417420547701, 15672653810385598260324, 5350951793759635255, 5678221696877877182452);
  (18053982134924401803, 16751706414543059234179, 4280761435007708204, 5678221696877877182452);
  (14256998428960807645, 6896250862851137848916, 10460014722997213487, 7160671779077741646244);
  (945584020171432629, 7923072501339071737046, 18083277385480129087, 32730517242587389482430);
  (15767003336179527123, 26959966828431513942538, 3994889085164598869, 4219095615434729202650);
  (15095557321833928361, 1885018250431168628162, 7989778170329197738, 10543744149501658407756);
  (14741957714304141515, 6917577554449525718141, 15449156929363715207, 4568852520071481897119);
  (11793566171443313212, 6920525945992386546444, 9552373843642058601, 9167466333853204715819);
  (5165664934137576207, 7480969626724056694736, 16180275080947795606, 10294981596553850749408);
  (5165664934137576207, 9351212033405070868420, 16043619025240782209, 4684254376510808228356);
  (0, 0, 0, 0);
  (0, 0, 0, 0);
  (0, 0, 0, 0);
  (0, 0, 0, 0);
  (0, 0, 0, 0);
  (0, 0, 0, 0);
  (0, 0, 0, 0);
  (0, 0, 0, 0);
  (0, 0, 0, 0);
  (0, 0, 0, 0);
  (0, 0, 0, 0);
  (0, 0, 0, 0);
  (0, 0, 0, 0);
  (0, 0, 0, 0);
  (0, 0, 0, 0);
  (0, 0, 0, 0);
  (0, 0, 0, 0);
  (0, 0, 0, 0);
  (0, 0, 0, 0);
  (0, 0, 0, 0);
  (0, 0, 0, 0);
  (0, 0, 0, 0);
  (0, 0, 0, 0);
  (0, 0, 0, 0);
  (0, 0, 0, 0);
  (0, 0, 0, 0);
  (0, 0, 0, 0);
  (0, 0, 0, 0);
  (0, 0, 0, 0);
  (0, 0, 0, 0);
  (0, 0, 0, 0);
  (0, 0, 0, 0);
  (0, 0, 0, 0);
  (0, 0, 0, 0);
  (0, 0, 0, 0);
  (0, 0, 0, 0);
  (0, 0, 0, 0);
  (0, 0, 0, 0);
  (0, 0, 0, 0);
  (0, 0, 0, 0);
  (0, 0, 0, 0);
  (0, 0, 0, 0);
  (0, 0, 0, 0);
  (0, 0, 0, 0);
  (0, 0, 0, 0);
  (0, 0, 0, 0);
  (0, 0, 0, 0);
  (0, 0, 0, 0);
  (0, 0, 0, 0);
  (0, 0, 0, 0);
  (0, 0, 0, 0);
  (0, 0, 0, 0);
  (0, 0, 0, 0);
  (0, 0, 0, 0);
  (0, 0, 0, 0);
  (0, 0, 0, 0);
  (0, 0, 0, 0);
  (0, 0, 0, 0);
  (0, 0, 0, 0);
  (0, 0, 0, 0);
  (0, 0, 0, 0);
  (0, 0, 0, 0);
  (0, 0, 0, 0);
  (0, 0, 0, 0);
  (0, 0, 0, 0);
  (0, 0, 0, 0);
  (0, 0, 0, 0);
  (0, 0, 0, 0);
  (0, 0, 0, 0);
  (0, 0, 0, 0);
  (0, 0, 0, 0);
  (0, 0, 0, 0);
  (0, 0, 0, 0);
  (0, 0, 0, 0);
  (0, 0, 0, 0);
  (0, 0, 0, 0);
  (0, 0, 0, 0);
  (0, 0, 0, 0);
  (0, 0, 0, 0);
  (0, 0, 0, 0);
  (0, 0, 0, 0);
  (0, 0, 0, 0);
  (0, 0, 0, 0);
  (15795864386240820348, 21132455124437065505648, 6288322939696136407, 2616942544051638353732);
  (4416837465187391351, 4628878145096356787979, 16319616828409762926, 22342469010450905344618);
  (11214230803019257017, 4826555016153321622544, 15975342548308205647, 8660308839556631680912);
  (11214230803019257017, 6033193770191652028180, 15023120199250415921, 7453670085518301275276);
  (11214230803019257017, 3765138990968272889104, 15065607676385259860, 10477799774452319919296);
  (8201109267742205045, 7334074791591163296249, 12052486141108207888, 10465747288311211711408);
  (6560887414193764036, 7332434569737614855240, 13692707994656648897, 11252088589489887977422);
  (18364671962261188759, 241860255668677611899065, 228373266507648330, 6479296525557906334058);
  (18364671962261188759, 302329910753837580171021, 182698613206118664, 6479250850904604804392);
  (16024745179204364649, 4837097608190271669002, 10926761603744401318, 7573958779843091521764);
  (17040826375434085463, 34468252506954492734836, 3351107926405767861, 3445709520446544721252);
  (12848324817704016335, 9481279832472520744601, 6702215852811535722, 8614273801116361803130);
  (10278659854163213068, 9483849497436061547868, 9271880816352338989, 8395204323073233983015);
  (17251278996909840172, 18421219997816095583288, 7618860460644046007, 1963672791530535555898);
  (15324795289656681339, 17922639402288633353644, 7618860460644046007, 2458400419643491467876);
  (17414873673717865, 5709877475267577790214, 18441764134037139313, 3957786862066271134193226);
  (13931898938974292, 2854928288709584664388, 18434211098137572445, 8727900026552707465266311);
  (12241028168157729777, 9191635717555481898545, 12185300572401832609, 5083047521689258346271);
  (17159730473723180555, 23218414192726032649723, 7322325862592278999, 245445412921406768249);
  (18076597819929194109, 2584197134301539874586, 4348813440950649665, 9016430096824614859998);
  (16337072443548934243, 7746630002511006740353, 3479050752760519732, 9014690571448234600132);
  (17789594103053047432, 42541779117892480542960, 3963224639261890795, 316024336074491492246);
  (17348354865501397207, 54090130952296139068209, 3170579711409512636, 157219523109393367964);
  (18054337645584037567, 12604979726960834873084, 12682318845638050544, 795609354681195377728);
  (14742561378157996859, 29768263317732128372322, 3998523778266022813, 3743953423972839228754);
  (13094367352142039807, 3220297451949481430877, 15994095113064091252, 9371879131266896140324);
  (18160681829687952177, 201840632032646398317644, 579945552184410289, 3147899159416048290228);
  (18356186108167469649, 175888820153572167392912, 579945552184410289, 3934294003717875952496);
  (18280611310077319511, 72699020812379314380534, 1159891104368820578, 4917867504647344940620);
  (5511948029005576827, 8336264219785635925480, 15663460475486435966, 7919128865874190493296);
  (16186890642404612675, 14797030061580585585682, 5162994584393459021, 6043630487883504228018);
  (1311761672568386049, 7476854510740478635444, 18028454992437063986, 30057622246605324381912);
  (1311761672568386049, 9346068138425598294305, 18095696677141132126, 3888631459013649157858);
  (15525966679767614540, 5453555187742007232812, 6451221667315421221, 8955479638742852154963);
  (12420773343814091632, 5450449994406053709904, 9556415003268944129, 9833349855243880621533);
  (15477799680685939459, 6000247201970867816290, 6499388666397096302, 8736812466451124256588);
  (495804469578349371, 5868715935953068257052, 18064683152334795272, 137570518530171919203168);
  (6885246129684064903, 14024276839069833319887, 11787274381054732322, 1295026001625674645486);
  (6885246129684064903, 8760869745587593284365, 16105540557813945754, 4811161174241766691554);
  (12860452693120480015, 14131946874391126694754, 11040373560625180433, 1415393350894270402466);
  (16184554637873372439, 5304824025896662030514, 5896192483376988427, 8832267029571712856246);
  (9409928220272504895, 5957454702872518957678, 11792384966753976854, 11049178075689706552948);
  (7527942576218003916, 5961218674160627959636, 13674370610808477833, 12315271733588599212849);
  (13273993728866901049, 7356633244816165851413, 9710210881728687483, 7743721578930860247857);
  (13862676324678472978, 24487957712283995802636, 6538883098464855203, 1017168599518002437438);
  (9468400388950302313, 11485836606697971224396, 13077766196929710406, 2536382615696541238392);
  (8296593472756123469, 7980281801099343108699, 11905959280735531562, 9547492226893797469786);
  (13490121927769259007, 13354701737512132669780, 6206130035485975862, 6771143862485041753016);
  (2913596756913313258, 10062922799998587211398, 16782655206341921611, 1833475456214723565443);
  (18227664043162430089, 33849680123844803173333, 2191092338503059019, 5489282490968348732305);
  (15020349702230555875, 16236802206838579175644, 4382184677006118038, 6862150886795061680136);
  (12016279761784444700, 16236802206838579175644, 7386254617452229213, 4518488056784182306259);
  (9613023809427555760, 16234398950886222286704, 9789510569809118153, 1591356896913035368451);
  (15380838095084089216, 16232476346124336775552, 7866905807923607001, 3024881292657415341995);
  (13878051637651992773, 15486664561688221934633, 7866905807923607001, 3775201436465826472243);
  (11844745301399682710, 3965169658052934574396, 9811438965147372647, 11424521873094995271306);
  (9140153517092119689, 11103210790358033589040, 9811438965147372647, 7142779030425658887728);
  (5618349199866322405, 3765910637572602072588, 14004528730428422889, 21622858213636749291908);
  (4494679359893057924, 3765910637572602072588, 16251868410374951851, 25145617448259635578591);
  (9334728525625571817, 9734712637850211270830, 17287977827893319758, 635377408477519120796);
  (10649082541407556630, 4544343073415642296702, 7953249302267747941, 12966589182560796863503);
  (8519266033126045304, 4550732522940486830680, 16472515335393793245, 11651539018283808437743);
  (17604548797110387971, 37313685250357917103586, 3294503067078758649, 2913708380337721799098);
  (14948626879833175946, 4961595898802854871236, 5703698828398446623, 9761774397178653174714);
  (7120190517612959703, 36794254847957662088, 11407397656796893246, 24410139691775031383408);
  (15373574386597529870, 12333849737855367509012, 6553593841927154471, 6074939231807789599286);
  (2670550790031363451, 8422698309273139156296, 16586066648461957439, 12928095760209410947928);
  (14224521253127355985, 7149324798389220101646, 15405293950794656712, 4505397450936271791632);
  (5689808501250942394, 3577507303445235522020, 16586066648461957439, 20191856592002973627418);
  (17188196827258900035, 56508455798122702752928, 2179251629442203009, 2971715299838386694432);
  (15592285248672372050, 13395651399869417904304, 12154645883220592043, 731462549661257783928);
  (12473828198937897640, 13395651399869417904304, 12154645883220592043, 914328187076572229910);
  (14649411523008171571, 1106663660941571637237, 9340697927715706918, 11187313609265849788886);
  (13843014656523523118, 7243270035052889707960, 8534301061231058465, 8120220017509917726204);
  (15738007827323564385, 32318560118274580290757, 3413720424492423386, 4060110008754958863102);
  (6561321989957136263, 1501431094063728604873, 14187119416025114562, 23306825952326743948642);
  (17945911397435644722, 18414339377299509607430, 4149688281196450165, 5450311292495454723401);
  (16803256701367618685, 77379339189272980582802, 1659875312478580066, 2724740677419607716684);
  (11660027902666424067, 1154687774747181852196, 13279002499828640528, 13627023137722995743552);
  (1684415741668398229, 7679527399921884260923, 18266808580327653447, 20151862762897698152279);
  (10338671767134178191, 7205589936317174055485, 17308512050931559924, 4788480835041196740452);
  (5529436763613147623, 302829817254948807832, 16820487607963231686, 30587351642763925914640);
  (11058873527226295246, 757074543137372019580, 7834082395907922199, 15217968367068225755362);
  (17785355816517276561, 29083044229657595497238, 3778591184626843489, 3617112751575026855690);
  (16182761169711334998, 1849137620344286424524, 7022984153651706457, 9963572097925083507998);
  (2259313975693510125, 8396118226628109088198, 16305282282996923039, 16519835002338251388254);
  (451862795138702025, 2099255488054596623062, 18227398437562681556, 300889135204803311893640);
  (90372559027740405, 262429529146581512984, 18393879271387481398, 1874434857323821367412528);
  (36149023611096162, 131214764573290756492, 18442129060143660581, 4752678636330498477451010);
  (144596094444384648, 656001524819231590136, 18343239983967116191, 1121685748755101512068527);
  (1156768755555077184, 3279573835812824796736, 18215015097898518827, 98971453352040214723325);
  (12203091810687274927, 5602346962116591145172, 7576016788466966191, 10798992523214198070060);
  (12203091810687274927, 7002933702645738931465, 13382668517185937909, 6597232301626754711181);
  (17792074558861382687, 2059457495065388243751, 13382668517185937909, 8243194709904146904499);
  (8880592240214730986, 3084977054858596641134, 13444448674049779339, 14948187305314561014711);
  (17662336229447315684, 27292511108806309408168, 4465008182852902065, 2964686310568277867878);
  (17962248360125018369, 180200659749093708101225, 893001636570580413, 740725076823784176763);
  (12879666692359039969, 17702319677599391963713, 7144013092564643304, 3708090392301773785880);
  (17729418345005924607, 6800878635430194290950, 15435156905088165941, 3906047095600326902846);
  (17061583038773279029, 42566368243660083256984, 2628179093034081455, 3654557296204229064888);
  (17061583038773279029, 26603980152287552035615, 4205086548854530328, 3654557296204229064888);
  (9299437776150998265, 257844629158524894916, 16820346195418121312, 18268581394472290794112);
  (7439550220920798612, 257844629158524894916, 14960458640187921659, 22900187900379994716369);
  (18416868034205568209, 2040750606915872039144026, 32543279338529774, 5853973357584178442772);
  (17734510396657356505, 27564162882364542854561, 5954894504670491867, 568546272999224099917);
  (3546902079331471301, 6890153995071302845815, 16725773860019024866, 16628994249643396683082);
  (14187608317325885204, 17227158438717922850188, 8818450791606492727, 1572338507910159791999);
  (8128592138429072677, 3121439284643039064040, 10888026751138752877, 17252465745854735630296);
  (15153410431774273274, 18005704137288259280542, 8680479060971008717, 1182996672759673834817);
  (7355950446870362221, 6893577178937044892612, 18243977198009115098, 6587633691699752006776);
  (7355950446870362221, 8624327424118176477986, 11652801579659147190, 10022769479588615305892);
  (9686510762802191659, 8269873654869165675180, 9322241263727317752, 10027430600220478964768);
  (17246910816042901408, 63153162964730078144320, 1791594352930488769, 3541487654090230694974);
  (8107527480827851081, 4282509629129683702955, 15273904892549806157, 13421345452615608794377);
  (188230013821179201, 5496638235222199344872, 18312858886722964249, 390827211968535704499544);
  (6900128015068875107, 10235459532571679894931, 12294415919568316606, 7012272110967636934498);
  (17337996794951301835, 19519313393603723470887, 3537740764813551621, 6065885373817941828887);
  (3467599358990260367, 4882429047920173562997, 17618562418244466851, 25436384598875094926575);
  (17919290417432087902, 28332266776661733776118, 4910752227244997517, 1958326968850937850383);
  (10114167503319833671, 12694859619816833541854, 9821504454489995034, 4898272798240967124716);
  (15948537566247862964, 7788612552792742485656, 5834370062928029293, 8074904888226639524826);
  (5212541013913539327, 5915638768959987893698, 16881281139769597913, 14265789081543682889074);
  (17225176208094441739, 20578215025197909527085, 3624987847559715569, 5783905561784026253513);
  (18130126383547212074, 11888759087734209737760, 3624987847559715569, 7232600693115702603568);
  (9427043261954714171, 529356067292282630375, 16677018957074145309, 17544895689801854447407);
  (17839504898252598721, 5244197593688141311371, 2029163251313659242, 9169718540776553403890);
  (2350403028862324199, 8186575501732803637611, 17518265120703933764, 13108378186705493446732);
  (13801523312829614137, 4505574630487908491373, 6067144836736643826, 10642926485591596059302);
  (14134970040700879434, 6038145723008742773426, 5733698108865378529, 9876474215967243285627);
  (3360508772734200362, 7956469842294809479436, 16508159376832057601, 12759347625530326684178);
  (9291670768920183330, 1581441864914106229012, 16508159376832057601, 15940930452224492326422);
  (14866673230272293328, 1577725196606538155680, 14649825223048020935, 10164424222060332987874);
  (15517217251945110507, 46012975424384912038181, 2929965044609604187, 2539641072992778444875);
  (13824796016763015089, 14742285627953353811930, 5859930089219208374, 6353497630048860518468);
  (17010742387780537775, 14483621646374454580612, 4266956903710447031, 6608975665256742227100);
  (6804296955112215110, 7248615120142339505416, 11936062284977001617, 12889597689263264920980);
  (5443437564089772088, 7248615120142339505416, 17379499849066773705, 8863381991436741645809);
  (17838675067806253658, 6838233899168311625196, 4984262345350292135, 7856021795257246667614);
  (16737153223281397203, 54420056852004341432758, 1993704938140116854, 3927014045159553275380);
  (8531063483820583261, 837953034490626921574, 16505883236381050677, 18801104601183419689034);
  (222497492504046338, 5119308291914294394630, 18438180713747066215, 358807820930247366934219);
  (14495192045628309302, 25357549817413871086114, 6802601037806061975, 119162074840044374011);
  (17165161955676865358, 127685755938858607451992, 1360520207561212395, 29450388658120790404);
  (17981474080213592795, 79801544303079941157491, 2176832332097939832, 28361972492071820488);
  (16657288808630357551, 19733506959877289046325, 8707329328391759328, 143986694792457042272);
  (18318654623828125223, 544869985712538707136126, 151473969630632221, 5005332218873143124662);
  (12901703931938515822, 21091629968069400287850, 7056747844491786795, 1967667037117788299951);
  (15923960881588530131, 56176473225350027377072, 2822699137796714718, 983127843774444971296);
  (13346509072385879011, 9620043009352504473436, 11290796551186858872, 4915639218872224856480);
  (12321777274867919320, 24155725237577233803352, 7185620434951919351, 52808857097986309881);
  (17457934114783919289, 30216750873836043748310, 2256909525004751623, 6073347413533677864278);
  (4394350632958684507, 4519711187008651347192, 17816339365936375506, 21322800874601077123760);
  (8788701265917369014, 11299277967521628367980, 15036366885700182315, 492050266531073030698);
  (14570129154694701565, 14181961210429745913421, 12029093508560145852, 249032406642676551812);
  (14943119339499086165, 3230464014469216017049, 18230135355242411078, 7718119155660374939010);
  (11954495471599268932, 3239429886072915468748, 9264263751542959379, 12063548757613723467015);
  (2928945438331115697, 2318167184399735690026, 16554436937854027637, 46381410052956687018030);
  (11715781753324462788, 11584978031122016218736, 11511934614897929479, 3487523335147545804156);
  (9250317119603650245, 280602006419844701567, 18296787100780767181, 18279422694997263125481);
  (7400253695682920196, 141226034921882715808, 16242876538433503823, 23233075768006561183528);
  (1191576909723051353, 5914188468193052332738, 17685245685501167254, 58435754507321109748340);
  (15176821260317216102, 21060313136610548562154, 5205256810712505345, 4256506179087079602121);
  (18024179193426320579, 74458617942150119496038, 2082102724285002138, 1064907333293376776332);
  (14848190549824275661, 11433954081082148771599, 8328410897140008552, 5320372461018313877384);
  (17094376162006834216, 28175459841061106294920, 2027408428319149999, 6850288422355511963437);
  (7648713836130393686, 5330336765446882283660, 11933990631341796839, 14461566377379498341762);
  (14928691770543822324, 35790377785052299387564, 3916540893494438105, 2280849132536406795473);
  (18199433611134245383, 209177689789771670539183, 783308178698887621, 570016456089426976963);
  (18309440911770143443, 214082638322973121875837, 783308178698887621, 356749852667578665365);
  (18133429230752706547, 100891917560278517137009, 1566616357397775242, 891482977579597219602);
  (12713060719057637713, 18762906067797313851566, 6266465429591100968, 4455848271540588322768);
  (15111568974968816634, 238656137652482344282, 17510077230879995555, 11252682282248120878093);
  (12713060719057637713, 14659314931761592548893, 7004030892351998222, 5628092148847148438602);
  (15773673289127708748, 9027279364592162183104, 10947449214633925409, 4780046352633983002032);
  (4826224074493783339, 8629578573266340740710, 14620184298718010651, 9957793496593787446458);
  (8715505749136142137, 10459277238625632320519, 15557126698569435192, 1320436359978161988152);
  (16062687308385625663, 29081074480733740159218, 2736648379773317222, 5891909285586727142252);
  (8542953033122048509, 12380515989930114857397, 12993031034810211598, 1564347050437953120674);
  (7724378026835271425, 8892369135331389045023, 12174456028523434514, 8539822184629117968338);
  (6179502421468217140, 8893914010936756099308, 16809082844624597369, 4001298608576699527313);
  (4943601937174573712, 8895149911421049742736, 15573182360330953941, 7221208467864980695483);
  (10184154493872040546, 2635907742185609672156, 15870132979853847063, 12999838676060054070014);
  (13120620594224495461, 8528335463683345109546, 14495376787039171262, 3856763907450897777220);
  (16844549667321135194, 415826099224435345150, 3723929073096639733, 10251153540676858289513);
  (11986068104618252262, 2772199693294509526486, 13440892198502405597, 11426911096930543938715);
  (18265860903236281014, 375933757151985601924802, 290964818776830667, 3549850438760957573967);
  (18220652475421725082, 320915630514309614959584, 290964818776830667, 4437240307246502759792);
  (15027925169632385775, 6459787520604295358354, 16191784444739708443, 4633313247511961541126);
  (3005585033926477155, 1613444087634110601011, 16677777236135199292, 49014055208595056738692);
  (2404468027141181724, 1612842970627325305580, 16076660229349903861, 61674949197709686049583);
  (5921646457266509779, 11539130499146450043228, 13314097759862944013, 3477320114036964697052);
  (12725775821730974231, 8931140413618726520439, 13314097759862944013, 4346650142546205871315);
  (18286743700928939749, 2365420225443535723826, 5560967879197965518, 8808049623446170657396);
  (6523271917198991435, 5289426578285111477274, 17003671650260905193, 12920647824901379246914);
  (1304654383439798287, 1323008971762997768462, 18437820030331285866, 114843572708200289625740);
  (5218617533759193148, 6612435550048109245736, 15951315210400361071, 13173513416440048807542);
  (9334419038941991341, 11567676106886905467382, 13745683153247571161, 1630413335352651787170);
  (11098924684664223269, 7855000950146521095317, 14627935976108687125, 5344852997738758391163);
  (16950099075107698119, 7159037263120102947154, 11702348780886949700, 5336076236153093178888);
  (16950099075107698119, 4461685715143733568382, 1773658974311421401, 9811804769833891086910);
  (16950099075107698119, 5585582193467220809537, 14979006439535295616, 5342629551470389870720);
  (12771642205857197494, 124669231549879768782, 10800549570284794991, 13536088222781026682165);
  (17313247252746407006, 30796874732112886098146, 4714438355228398497, 1677016678698296913985);
  (633986437412242303, 8957139688661297270601, 18223766983501351685, 17337508643797553442029);
  (12202233064925295617, 9392768297071309418885, 7289506793400540674, 8666931945200426585846);
  (17717647623043754491, 49571231416310533189569, 1933257463055265281, 4424437173766955555213);
  (10180270990105926246, 15929106157378776039674, 8956650421163493685, 3099439741922583766117);
  (14986551727513756281, 42151091837820756362843, 3582660168465397474, 1548824205919175533690);
  (18044483053057420647, 2410956999142781894000, 14330640673861589896, 7740538369427412270976);
  (13797763735191116989, 5979856558963640292738, 8493438635732607316, 8946016868998803217976);
  (4881282786821627267, 8960341495115542642175, 17832961896738979444, 2957243829086793435516);
  (12990724102881544498, 11958642647104196859380, 9723520580679062213, 4460449125739150502734);
  (13644164807322040955, 9523127084843710947138, 8416639171798069299, 6894657806590755422062);
  (10915331845857632764, 9528584750766639763520, 13874305094726885681, 3849821563269225361168);
  (5957404457740729075, 10491040141583946103812, 13874305094726885681, 4812276954086531701460);
  (2382961783096291630, 2621568554504438380138, 16178350957818730829, 55314322144729016297289);
  (1906369426477033304, 2622045146861057638464, 17608128027676505807, 67172324233026022460056);
  (7625477705908133216, 13110225734305288192320, 11909651082034247699, 2371832750520688603462);
  (11532503463496609399, 9539073332779754221157, 8191199133714590666, 8331939630259731901090);
  (15778962077768960052, 1195299480961695600028, 4246458614272350653, 10719892807415374719369);
  (11773877939360697911, 3878216152300379454348, 16020336553633048564, 9520588242315270857200);
  (13086262223687096553, 10099384461682500726605, 10461493655034299269, 5239840393367665710759);
  (7326803620481698475, 3737900431594213510994, 13596183689586900063, 16842732161840894937526);
  (2930721448192679390, 1867484855073010415802, 16934842310499422261, 48656623581047360699185);
  (4689154317108287024, 1868070999362648951680, 14004120862306742871, 31575817257467443604008);
  (15017962232550142117, 16767291561339443421482, 3738655035883005979, 7426936564526198663082);
  (8998108921726461630, 961208270604386278474, 11976364532629242773, 18082998620977420512489);
  (14396974274762338608, 963007892388731570800, 6577499179593365795, 11661505052190083504009);
  (13081474438843665449, 4115865759923724423140, 18343473782518358085, 7546954792102277754028);
  (13081474438843665449, 5144832199904655528925, 14674779026014686468, 7546954792102277754028);
  (18381071762676231088, 17834321557941254282992, 3890938557505549905, 5703275838335072894099);
  (17602884051175121107, 23714320185997542296988, 3112750846004439924, 5704054026046574004080);
  (17409782291914840497, 2099591567870078211521, 15756855989282480230, 8107028998164237865786);
  (7955668698345352359, 4355363979992267589005, 17255300884506616009, 12452938864562935966653);
  (15911337396690704718, 10876476446933150943974, 11675521572809857819, 2968703088466874684937);
  (8699639273238253451, 4702587180804785490841, 14651403872381462187, 12106831619612757416455);
  (1099149869638017886, 5378138889039286851770, 17761734113563736571, 71600335008460363348607);
  (7729116327337215281, 7640279133576018797295, 11061633176122359018, 11606838728435482610602);
  (2425143161177857365, 8632525318081179214963, 16365606342281716934, 13586027124279644088022);
  (485028632235571473, 2158252586678353696609, 18414648042276434855, 277264270922856247294249);
  (3880229057884571784, 10792718019288475197464, 15323616782109002323, 2278498708888434586775);
  (17033547964806258887, 48001864796567231306616, 1512631733267971751, 5965605528933029252488);
  (11653840732380013158, 138510282551498643356, 8852183832725950081, 14844758681056823809542);
  (5782199052813630494, 3778999261776751866440, 14813268139045084915, 20449874074125768670188);
  (14527051733436277971, 4335029635910437498553, 5925307255618033966, 10224937037062884335094);
  (14527051733436277971, 5422418807821405942684, 7645656151181682767, 9139268214047479539764);
  (17126757852552698540, 9983489535918869363296, 16209035077458032037, 724120693895830872088);
  (13701406282042158832, 9983489535918869363296, 16209035077458032037, 905150867369788590110);
  (18194244715096886535, 248644232161969902909407, 501525759083174641, 2721909337942622901031);
  (16806687308619072793, 29827880472855941857113, 2006103036332698564, 6806027159254265189180);
  (18259997134093734788, 9423493992943716590664, 15701100886902999655, 1438408877082794519554);
  (14538453026523270059, 26068681290740920250850, 6280440354761199862, 722344658718777859708);
  (791028926800348134, 6878540409276319079600, 18398015541241840309, 60267174685290895626008)].
Definition check_gap (x : Z * (Z * Z * Z * Z)) : bool :=
  let '(q, (a1, r1, a2, r2)) := x in
  if (q <? -27) || (55 <? q) then
    let p := phi q in let m := 2 ^ 137 in
    (0 <=? a1) && (0 <=? a2) && (0 <=? r1) && (2 ^ 64 <=? r2) && (2 ^ 64 <=? a1 + a2) &&
    (a1 * r2 + a2 * r1 =? m) && ((a1 * p - r1) mod m =? 0) && ((a2 * p + r2) mod m =? 0)
  else true.
Lemma table_gaps : forallb check_gap (combine all_q gap_numbers) = true. Proof. vm_compute. reflexivity. Qed.
Lemma combine_has {A B : Type} (l : list A) : forall (m : list B) x, length m = length l -> In x l -> exists y, In (x, y) (combine l m).
Proof.
  induction l as [|a l IH]; intros [|b m] x L J; try contradiction; try discriminate. destruct J as [->|J]; [exists b; left; reflexivity|].
  destruct (IH m x) as (y & Y); [injection L as L; exact L|exact J|]. exists y. right. exact Y.
Qed.
Lemma gap_numbers_all : length gap_numbers = length all_q. Proof. vm_compute. reflexivity. Qed.
Lemma lattice m p a1 r1 a2 r2 w c r :
  0 < m -> 0 <= a1 -> 0 <= a2 -> 0 <= r1 -> a1 * r2 + a2 * r1 = m ->
  (a1 * p - r1) mod m = 0 -> (a2 * p + r2) mod m = 0 ->
  0 < w < a1 + a2 -> p * w = c * m + r -> - r2 < r < 0 -> 0 <= r2 -> False.
Proof.
  intros M A1 A2 R1 D E1 E2 W PW R R2.
  apply Z.mod_divide in E1; [|lia]. apply Z.mod_divide in E2; [|lia].
  destruct E1 as [k1 E1], E2 as [k2 E2].
  assert (X : w * r2 + r * a2 = (k2 * w - c * a2) * m).
  { replace r2 with (k2 * m - a2 * p) by lia. replace r with (p * w - c * m) by lia. ring. }
  assert (Y : w * r1 - r * a1 = (c * a1 - k1 * w) * m).
  { replace r1 with (a1 * p - k1 * m) by lia. replace r with (p * w - c * m) by lia. ring. }
  set (x := k2 * w - c * a2) in *. set (y := c * a1 - k1 * w) in *.
  assert (WW : w = x * a1 + y * a2).
  { apply (Z.mul_cancel_r _ _ m); [lia|]. rewrite Z.mul_add_distr_r.
    replace (x * a1 * m) with (x * m * a1) by ring. replace (y * a2 * m) with (y * m * a2) by ring.
    rewrite <- X, <- Y, <- D. ring. }
  assert (RR : r = x * r1 - y * r2).
  { apply (Z.mul_cancel_r _ _ m); [lia|]. rewrite Z.mul_sub_distr_r.
    replace (x * r1 * m) with (x * m * r1) by ring. replace (y * r2 * m) with (y * m * r2) by ring.
    rewrite <- X, <- Y, <- D. ring. }
  clearbody x y. clear X Y E1 E2 PW.
  destruct (Z.le_gt_cases x 0) as [LX|LX].
  - assert (1 <= y) by nia. nia.
  - destruct (Z.le_gt_cases y 0) as [LY|LY]; nia.
Qed.
Lemma gap_far q w c r : -342 <= q <= 308 -> q < -27 \/ 55 < q -> 0 < w < 2 ^ 64 ->
  phi q * w = c * 2 ^ 137 + r -> r < 0 -> r <= - 2 ^ 64.
Proof.
  intros Q Q2 W P R. destruct (Z.le_gt_cases r (- 2 ^ 64)) as [L|L]; [exact L|]. exfalso.
  destruct (combine_has all_q gap_numbers q gap_numbers_all (all_q_in q Q)) as ([[[a1 r1] a2] r2] & J).
  assert (C := proj1 (forallb_forall _ _) table_gaps _ J). unfold check_gap in C.
  replace ((q <? -27) || (55 <? q)) with true in C by lia. cbv zeta in C.
  rewrite !andb_true_iff in C. destruct C as [[[[[[[C1 C2] C3] C4] C5] C6] C7] C8].
  apply Z.eqb_eq in C6, C7, C8.
  apply (lattice (2 ^ 137) (phi q) a1 r1 a2 r2 w c r); try lia.
Qed.

(** ** Small negative powers: [5^q] is [2^(-tq q) / 5^(-q)], the numbers are multiples of a large power of two *)
Definition check_near (q : Z) : bool :=
  if near_neg q then
    (tq q <? 0) && (2 ^ 65 * 5 ^ (- q) <=? 2 ^ Z.min (- tq q) 137) &&
    ((phi q - 1) * 5 ^ (- q) <? 2 ^ (- tq q)) && (2 ^ (- tq q) <=? phi q * 5 ^ (- q))
  else true.
Lemma table_near : forallb check_near all_q = true. Proof. vm_compute. reflexivity. Qed.
Lemma near_facts q : -27 <= q < 0 -> tq q < 0 /\ 2 ^ 65 * 5 ^ (- q) <= 2 ^ Z.min (- tq q) 137 /\
  (phi q - 1) * 5 ^ (- q) < 2 ^ (- tq q) <= phi q * 5 ^ (- q).
Proof.
  intros Q. assert (C := all_q_check _ table_near q ltac:(lia)). unfold check_near in C.
  replace (near_neg q) with true in C by (unfold near_neg; lia).
  rewrite !andb_true_iff in C. destruct C as [[[C1 C2] C3] C4].
  apply Z.ltb_lt in C1, C3. apply Z.leb_le in C2, C4. auto.
Qed.
(** [n] is the exponent of the unit: the number is compared with [g * 2^n] *)
Lemma near_scale q n g w : -27 <= q < 0 -> 137 <= n ->
  let u := 2 ^ Z.min (- tq q) n in
  u * cmp_num g (n + tq q) q = g * 2 ^ n * 5 ^ (- q) /\ u * cmp_den w (n + tq q) q = w * 2 ^ (- tq q) /\
  2 ^ 65 * 5 ^ (- q) <= u.
Proof.
  intros Q N. destruct (near_facts q Q) as [T [U _]]. cbv zeta. unfold cmp_num, cmp_den.
  replace (Z.max (- q) 0) with (- q) by lia. replace (Z.max q 0) with 0 by lia.
  split; [|split].
  - replace (2 ^ n) with (2 ^ Z.min (- tq q) n * 2 ^ Z.max (n + tq q) 0); [ring|].
    rewrite <- Z.pow_add_r by lia. f_equal. lia.
  - replace (2 ^ (- tq q)) with (2 ^ Z.min (- tq q) n * 2 ^ Z.max (- (n + tq q)) 0); [ring|].
    rewrite <- Z.pow_add_r by lia. f_equal. lia.
  - apply (Z.le_trans _ _ _ U). apply Z.pow_le_mono_r; lia.
Qed.
Lemma gap_near q n g w : -27 <= q < 0 -> 137 <= n -> 0 < w < 2 ^ 64 -> g * 2 ^ n <= phi q * w ->
  cmp_num g (n + tq q) q <= cmp_den w (n + tq q) q.
Proof.
  intros Q N W G. destruct (near_facts q Q) as [T [_ [F1 F2]]].
  destruct (near_scale q n g w Q N) as [S1 [S2 U]]. cbv zeta in *. set (u := 2 ^ Z.min (- tq q) n) in *.
  destruct (Z.le_gt_cases (cmp_num g (n + tq q) q) (cmp_den w (n + tq q) q)) as [L|L]; [exact L|]. exfalso.
  assert (F : 0 < 5 ^ (- q)) by (apply Z.pow_pos_nonneg; lia).
  set (f := 5 ^ (- q)) in *. set (b := 2 ^ (- tq q)) in *.
  assert (D : u <= g * 2 ^ n * f - w * b) by (rewrite <- S1, <- S2; nia).
  assert (g * 2 ^ n * f <= phi q * w * f) by nia.
  assert (phi q * f * w < (b + f) * w) by nia.
  assert (f * w < 2 ^ 64 * f) by nia. lia.
Qed.
Lemma gap_near_exact q n g w : -27 <= q < 0 -> 137 <= n -> 0 < w < 2 ^ 64 ->
  g * 2 ^ n <= phi q * w < g * 2 ^ n + 2 ^ 65 ->
  cmp_num g (n + tq q) q = cmp_den w (n + tq q) q.
Proof.
  intros Q N W [G G2]. assert (L := gap_near q n g w Q N W G).
  destruct (near_facts q Q) as [T [_ [F1 F2]]].
  destruct (near_scale q n g w Q N) as [S1 [S2 U]]. cbv zeta in *. set (u := 2 ^ Z.min (- tq q) n) in *.
  destruct (Z.eq_dec (cmp_num g (n + tq q) q) (cmp_den w (n + tq q) q)) as [E|E]; [exact E|]. exfalso.
  assert (F : 0 < 5 ^ (- q)) by (apply Z.pow_pos_nonneg; lia).
  set (f := 5 ^ (- q)) in *. set (b := 2 ^ (- tq q)) in *.
  assert (D : u <= w * b - g * 2 ^ n * f) by (rewrite <- S1, <- S2; nia).
  assert (w * b <= phi q * w * f) by nia.
  assert (phi q * w * f < (g * 2 ^ n + 2 ^ 65) * f) by nia. lia.
Qed.

(** ** A product with the high word alone cannot look like a tie *)
Fixpoint newton (fuel : nat) (h x m : Z) : Z :=
  match fuel with O => x | S fuel => newton fuel h ((x * (2 - h * x)) mod m) m end.
Definition check_tie (n lo : Z) (q : Z) : bool :=
  if (lo <=? q) && (q <? 0) then
    let '(h, _) := pow5_entry q in
    negb (h mod 8 =? 0) &&
    if Z.even h then true else
      let i := newton 8 h h (2 ^ n) in ((h * i) mod 2 ^ n =? 1) && (2 ^ 64 <=? i) && (i <? 2 ^ n)
  else true.
Lemma table_tie64 : forallb (check_tie 73 (-4)) all_q = true. Proof. vm_compute. reflexivity. Qed.
Lemma table_tie32 : forallb (check_tie 102 (-17)) all_q = true. Proof. vm_compute. reflexivity. Qed.
Lemma odd_mult_pow2 h w n : 0 < w < 2 ^ n -> 0 <= n -> Z.odd h = true -> ~ (2 ^ n | h * w).
Proof.
  intros W N O G. apply Z.gauss in G.
  - apply Z.divide_pos_le in G; lia.
  - apply Zgcd_1_rel_prime. apply rel_prime_sym. apply rel_prime_Zpower_r; [lia|]. apply rel_prime_sym.
    apply prime_rel_prime; [apply prime_2|]. intros [d D]. rewrite D, Z.odd_mul, andb_false_r in O. discriminate.
Qed.
Lemma small_v2 h w n : 2 <= n -> 0 < w < 2 ^ (n - 2) -> h mod 8 <> 0 -> (h * w) mod 2 ^ n <> 0.
Proof.
  intros N W C1 H.
  assert (PN : 0 < 2 ^ n) by (apply Z.pow_pos_nonneg; lia).
  apply Z.mod_divide in H; [|lia].
  assert (K : forall k h', 0 <= k <= 2 -> h = 2 ^ k * h' -> Z.odd h' = true -> False).
  { intros k h' K HH O. apply (odd_mult_pow2 h' w (n - k)); [|lia|exact O|].
    - assert (2 ^ (n - 2) <= 2 ^ (n - k)) by (apply Z.pow_le_mono_r; lia). lia.
    - destruct H as [c H]. exists c. apply (Z.mul_cancel_l _ _ (2 ^ k)); [apply Z.pow_nonzero; lia|].
      replace (2 ^ k * (h' * w)) with (h * w) by (rewrite HH; ring). rewrite H.
      replace (2 ^ n) with (2 ^ k * 2 ^ (n - k)) by (rewrite <- Z.pow_add_r by lia; f_equal; lia). ring. }
  assert (D := Z.div_mod h 8). assert (M := Z.mod_pos_bound h 8).
  set (a := h / 8) in *. set (b := h mod 8) in *. clearbody a b.
  assert (B8 : b = 1 \/ b = 2 \/ b = 3 \/ b = 4 \/ b = 5 \/ b = 6 \/ b = 7) by lia.
  assert (OD : forall z, Z.odd (2 * z + 1) = true) by (intros z; rewrite Z.odd_add, Z.odd_mul; reflexivity).
  assert (T1 : 2 ^ 1 = 2) by reflexivity. assert (T2 : 2 ^ 2 = 4) by reflexivity. assert (T0 : 2 ^ 0 = 1) by reflexivity.
  destruct B8 as [X|[X|[X|[X|[X|[X|X]]]]]].
  - apply (K 0 (2 * (4 * a) + 1)); [lia|rewrite T0; lia|apply OD].
  - apply (K 1 (2 * (2 * a) + 1)); [lia|rewrite T1; lia|apply OD].
  - apply (K 0 (2 * (4 * a + 1) + 1)); [lia|rewrite T0; lia|apply OD].
  - apply (K 2 (2 * a + 1)); [lia|rewrite T2; lia|apply OD].
  - apply (K 0 (2 * (4 * a + 2) + 1)); [lia|rewrite T0; lia|apply OD].
  - apply (K 1 (2 * (2 * a + 1) + 1)); [lia|rewrite T1; lia|apply OD].
  - apply (K 0 (2 * (4 * a + 3) + 1)); [lia|rewrite T0; lia|apply OD].
Qed.
Lemma even_not_1 h w n : 1 <= n -> Z.even h = true -> (h * w) mod 2 ^ n <> 1.
Proof.
  intros N EV H. apply Z.even_spec in EV. destruct EV as [d ->].
  assert (PN : 0 < 2 ^ n) by (apply Z.pow_pos_nonneg; lia).
  assert (DM := Z.div_mod (2 * d * w) (2 ^ n)). rewrite H in DM.
  assert (2 ^ n = 2 * 2 ^ (n - 1)) by (change 2 with (2 ^ 1) at 2; rewrite <- Z.pow_add_r by lia; f_equal; lia). lia.
Qed.
Lemma big_inverse h i w k m : 0 < m -> (h * i) mod m = 1 -> k <= i < m -> 0 < w < k -> (h * w) mod m <> 1.
Proof.
  intros M C2 I W H.
  assert (W2 : w mod m = i mod m).
  { transitivity (((h * i) mod m * w) mod m); [now rewrite C2, Z.mul_1_l|].
    rewrite Z.mul_mod_idemp_l by lia. replace (h * i * w) with (i * (h * w)) by ring.
    rewrite <- Z.mul_mod_idemp_r by lia. rewrite H. now rewrite Z.mul_1_r. }
  rewrite (Z.mod_small w), (Z.mod_small i) in W2 by lia. lia.
Qed.
Lemma no_tie n lo q h l w : 73 <= n -> check_tie n lo q = true -> lo <= q < 0 -> pow5_entry q = (h, l) -> 0 < w < 2 ^ 64 ->
  (h * w) mod 2 ^ n <> 0 /\ (h * w) mod 2 ^ n <> 1.
Proof.
  intros N C Q E W. unfold check_tie in C. replace ((lo <=? q) && (q <? 0)) with true in C by lia.
  rewrite E in C. apply andb_true_iff in C. destruct C as [C1 C2]. apply negb_true_iff, Z.eqb_neq in C1.
  assert (PN : 0 < 2 ^ n) by (apply Z.pow_pos_nonneg; lia).
  assert (P64 : 2 ^ 64 <= 2 ^ (n - 2)) by (apply Z.pow_le_mono_r; lia).
  split; [apply small_v2; [lia|lia|exact C1]|].
  destruct (Z.even h) eqn:EV; [apply even_not_1; [lia|exact EV]|].
  cbv zeta in C2. rewrite !andb_true_iff in C2. destruct C2 as [[C2 C3] C4].
  apply Z.eqb_eq in C2. apply Z.leb_le in C3. apply Z.ltb_lt in C4.
  exact (big_inverse _ _ _ _ _ PN C2 (conj C3 C4) W).
Qed.
