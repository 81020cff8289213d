(** The period of xorshift: from every seed but 0 it runs through all 2^64-1 nonzero states.
    One step is a linear map over the field of two elements. Its power 2^64-1 is the
    identity, and for each prime q dividing 2^64-1 the power (2^64-1)/q has no fixed point
    except 0; both are computed with 64x64 matrices. *)
From Coq Require Import Znumtheory.
From Verif Require Import Base BaseLemmas SubstrModel MemUtilModel MemUtilProofs HashModel HashSpec HashProofs RngModel RngSpec RngProofs.

(** ** Matrices: lists of columns, the bits of an integer *)
Fixpoint app_m (M : list Z) (x : Z) : Z :=
  match M with
  | [] => 0
  | c :: M => if Z.odd x then Z.lxor c (app_m M (Z.div2 x)) else app_m M (Z.div2 x)
  end.
Definition mul_m (M N : list Z) : list Z := map (app_m M) N.
Fixpoint pow_m (M : list Z) (p : positive) : list Z :=
  match p with
  | xH => M
  | xO p => let Q := pow_m M p in mul_m Q Q
  | xI p => let Q := pow_m M p in mul_m M (mul_m Q Q)
  end.
Definition columns (f : Z -> Z) (k : nat) : list Z := map (fun i => f (2 ^ Z.of_nat i)) (seq 0 k).
Definition id_m : list Z := columns (fun x => x) 64.
Definition plus_id (M : list Z) : list Z := columns (fun x => Z.lxor (app_m M x) x) 64.

Definition linear (f : Z -> Z) : Prop := f 0 = 0 /\ forall x y, f (Z.lxor x y) = Z.lxor (f x) (f y).
Lemma app_linear M : linear (app_m M).
Proof.
  split.
  - induction M as [|c M IH]; [reflexivity|]. cbn [app_m]. change (Z.odd 0) with false. change (Z.div2 0) with 0. cbn iota. exact IH.
  - induction M as [|c M IH]; intros x y; [reflexivity|]. cbn [app_m].
    rewrite !Z.div2_spec, Z.shiftr_lxor, <- !Z.div2_spec, IH. rewrite <- !Z.bit0_odd, Z.lxor_spec, !Z.bit0_odd.
    set (a := app_m M (Z.div2 x)). set (b := app_m M (Z.div2 y)).
    destruct (Z.odd x), (Z.odd y); cbn [xorb].
    + replace (Z.lxor (Z.lxor c a) (Z.lxor c b)) with (Z.lxor (Z.lxor c c) (Z.lxor a b)).
      { rewrite Z.lxor_nilpotent, Z.lxor_0_l. reflexivity. }
      rewrite !Z.lxor_assoc. f_equal. rewrite <- !Z.lxor_assoc. f_equal. apply Z.lxor_comm.
    + rewrite Z.lxor_assoc. reflexivity.
    + rewrite <- !Z.lxor_assoc. f_equal. apply Z.lxor_comm.
    + reflexivity.
Qed.
Lemma mul_m_ok M N x : app_m (mul_m M N) x = app_m M (app_m N x).
Proof.
  revert x. induction N as [|c N IH]; intros x.
  - cbn. symmetry. apply app_linear.
  - cbn [mul_m map app_m]. change (map (app_m M) N) with (mul_m M N). rewrite IH. destruct (Z.odd x); [|reflexivity].
    symmetry. apply app_linear.
Qed.
Lemma pow_m_ok M p x : app_m (pow_m M p) x = calls (app_m M) (Pos.to_nat p) x.
Proof.
  revert x. induction p as [p IH|p IH|]; intros x; cbn [pow_m].
  - rewrite !mul_m_ok, !IH. rewrite <- calls_plus. rewrite Pos2Nat.inj_xI.
    replace (S (2 * Pos.to_nat p)) with (S (Pos.to_nat p + Pos.to_nat p)) by lia. rewrite calls_S. reflexivity.
  - rewrite !mul_m_ok, !IH. rewrite <- calls_plus. rewrite Pos2Nat.inj_xO.
    replace (2 * Pos.to_nat p)%nat with (Pos.to_nat p + Pos.to_nat p)%nat by lia. reflexivity.
  - reflexivity.
Qed.
(** a linear map is its matrix *)
Lemma split_bit x : x = Z.lxor (if Z.odd x then 1 else 0) (2 * Z.div2 x).
Proof.
  apply Z.bits_inj'. intros i I. rewrite Z.lxor_spec. destruct (Z.eq_dec i 0) as [->|N].
  - rewrite (Z.bit0_odd x), (Z.bit0_odd (2 * _)), Z.odd_mul. cbn [Z.odd andb]. destruct (Z.odd x); reflexivity.
  - replace (Z.testbit (if Z.odd x then 1 else 0) i) with false.
    + rewrite xorb_false_l. replace i with (Z.succ (i - 1)) by lia. rewrite Z.double_bits_succ, Z.div2_spec, Z.shiftr_spec by lia. f_equal; lia.
    + destruct (Z.odd x); [|rewrite Z.bits_0; reflexivity]. symmetry. apply Z.bits_above_log2; [lia|]. cbn. lia.
Qed.
Lemma linear_columns f : linear f -> forall k o x, 0 <= x < 2 ^ Z.of_nat k ->
  f (x * 2 ^ Z.of_nat o) = app_m (map (fun i => f (2 ^ Z.of_nat i)) (seq o k)) x.
Proof.
  intros [F0 FL]. induction k as [|k IH]; intros o x X.
  - cbn in X. assert (x = 0) by lia. subst x. rewrite Z.mul_0_l. exact F0.
  - cbn [seq map app_m]. rewrite Nat2Z.inj_succ, Z.pow_succ_r in X by lia.
    assert (0 <= Z.div2 x < 2 ^ Z.of_nat k) as D. { rewrite Z.div2_div. split; [apply Z.div_pos; lia|apply Z.div_lt_upper_bound; lia]. }
    rewrite <- (IH (S o) (Z.div2 x) D).
    assert (x * 2 ^ Z.of_nat o = Z.lxor ((if Z.odd x then 1 else 0) * 2 ^ Z.of_nat o) (Z.div2 x * 2 ^ Z.of_nat (S o))) as E.
    { rewrite (split_bit x) at 1. rewrite <- !Z.shiftl_mul_pow2 by lia. rewrite Z.shiftl_lxor. f_equal.
      rewrite !Z.shiftl_mul_pow2 by lia. rewrite Nat2Z.inj_succ, Z.pow_succ_r by lia. ring. }
    rewrite E, FL. destruct (Z.odd x).
    + rewrite Z.mul_1_l. reflexivity.
    + rewrite Z.mul_0_l, F0, Z.lxor_0_l. reflexivity.
Qed.
Lemma columns_ok f x : linear f -> state64 x -> app_m (columns f 64) x = f x.
Proof.
  intros F X. unfold columns. rewrite <- (linear_columns f F 64 0 x) by exact X.
  change (2 ^ Z.of_nat 0) with 1. rewrite Z.mul_1_r. reflexivity.
Qed.
Lemma id_m_ok x : state64 x -> app_m id_m x = x.
Proof. intros X. apply (columns_ok (fun x => x)); auto. split; auto. Qed.
Lemma plus_id_linear M : linear (fun x => Z.lxor (app_m M x) x).
Proof.
  destruct (app_linear M) as [H0 HL]. split; [rewrite H0; reflexivity|]. intros x y. rewrite HL.
  rewrite !Z.lxor_assoc. f_equal. rewrite <- !Z.lxor_assoc. f_equal. apply Z.lxor_comm.
Qed.
Lemma xorshift_linear : linear xorshift_step.
Proof.
  split; [reflexivity|].
  assert (forall k x y, xr k (Z.lxor x y) = Z.lxor (xr k x) (xr k y)) as R.
  { intros k x y. unfold xr. rewrite Z.shiftr_lxor. rewrite !Z.lxor_assoc. f_equal. rewrite <- !Z.lxor_assoc. f_equal. apply Z.lxor_comm. }
  assert (forall k x y, xl k (Z.lxor x y) = Z.lxor (xl k x) (xl k y)) as L.
  { intros k x y. unfold xl. rewrite Z.shiftl_lxor, u64_lxor. rewrite !Z.lxor_assoc. f_equal. rewrite <- !Z.lxor_assoc. f_equal. apply Z.lxor_comm. }
  intros x y. change (xr 18 (xl 31 (xr 11 (Z.lxor x y))) = Z.lxor (xr 18 (xl 31 (xr 11 x))) (xr 18 (xl 31 (xr 11 y)))).
  rewrite R, L, R. reflexivity.
Qed.

(** ** The computation *)
Definition T : list Z := columns xorshift_step 64.
Definition N64 : positive := 18446744073709551615.
Definition qs : list positive := [3; 5; 17; 257; 641; 65537; 6700417]%positive.
Definition eqb_m (M N : list Z) : bool := if list_eq_dec Z.eq_dec M N then true else false.
(** the power N/q, as computed by q * (N/q) = N *)
Definition quot (q : positive) : positive := match Z.pos N64 / Z.pos q with Z.pos r => r | _ => 1%positive end.
Lemma xorshift_order : eqb_m (pow_m T N64) id_m = true.
Proof. vm_compute. reflexivity. Qed.
(** the inverses of T^(N/q) + 1, one for each q *)
Definition inverses : list (list Z) :=
  [[4064868596155026441; 7131816141742362655; 16808067755731446774; 11385291102119953932; 13490308353914177236; 1461269935737686065; 6612506807569626952; 3161377127941488192; 4872186398125781282; 16660719256666858758; 14444248015998127024; 8178824428220658157; 11776534197770961590; 16621976392261661877; 12919948323745390700; 8555197615426133759; 292702790601658294; 13563222345528686108; 1026386466405130984; 12606023383780303158; 6555912567420003360; 379118845728610732; 17956913469664978367; 14569093919132955824; 3451904416085865058; 15624558606718256614; 6185333170859342019; 2233519837580826880; 8409105593061407149; 4452960062328666846; 15659041064845120012; 3434257924834434805; 2689235733689038095; 7858107312692859159; 7334317779783858060; 1403512217977082103; 4776848411396315034; 14302649725787231283; 16355376702148765636; 4024192235931482171; 16535789684817932281; 17151592654835589145; 8289677090467196618; 17924972983088957168; 5371511167443337193; 17397996407355689204; 9215392380181922253; 14881222821093826649; 6536023998566700042; 1938800082563771190; 8008312094363211436; 7141816843104135526; 1260940029998310407; 5281469825977975936; 11266715602094218678; 16973834295204133835; 6589995525393906048; 14056534772066327170; 11581989980652924020; 12864546884727286713; 14249615115388257559; 11763543709103162025; 7625654545094187684; 10397299449449455679];
   [12924270697807800834; 342094813012123948; 13417334271106517082; 12319851734743115698; 3659136368421382380; 4819165243043738920; 13704049344810243898; 9276463072003405426; 6742990951396986253; 11254674806375544588; 8608529563341505246; 4806420214052118811; 15541410554072501435; 8143854947914225581; 13856552252845939091; 6808316338831282064; 8724348072966317440; 14318888933585160504; 9448508079828107116; 13124293381965695433; 16975518381073588442; 9277261535889679508; 8284147883719975610; 5600931879784146667; 16543090005460713171; 11241099998221978768; 14494258737987067352; 2846360498246980233; 17234447440997451427; 15016311922052545902; 5856434254191124779; 7164878497017627854; 15456193888190820454; 4789169010240200396; 9834818181312546753; 16479417197214218044; 16411942012665774072; 8973340117636290122; 18077005230821454113; 9716918052909339067; 16651641441722857965; 11489722368899637984; 1351557612200867371; 3278715535708940851; 5593121039148163609; 6697072860229130158; 12291412605304687145; 10574933184056490037; 15309657025157964530; 2634113102444046871; 17118347055055133144; 17508294900673870681; 11226712466840144889; 15840535422644115403; 9959354407823052909; 230750960508250783; 12981588124557038619; 6398369847434295617; 17033020169656667810; 2004428969027357592; 12310971764125681401; 13269377214086221271; 18011102752012785860; 17649751228988640349];
   [17943979749651819903; 13957437134318647140; 9291942671582714604; 10375332683250095324; 11472456441419755252; 1795775891179651277; 1738413637732878243; 15677585180767730744; 8464943289708692493; 3797128707304187448; 9134132756117978254; 9283544647532450265; 15363952098844531612; 1800535212717106035; 16400369438576249351; 4231317809687576241; 17098557974017490520; 15352546930264902785; 2719545778374465148; 1132174240052065993; 11315776757676286894; 9493808982145754464; 4534529761361600366; 5677160359424639516; 2822366106801196569; 13805017199894614758; 17844987668578633665; 11240566900528700669; 17066412738949359788; 14407639807375361088; 13600930882391990180; 6460622466604390979; 5516480545911644310; 8270130307858097644; 17093421219784461699; 13078423635799237213; 7191106572636318318; 5383955318913256480; 6796183605740622040; 9480277431182923895; 9458387208857184262; 8259143528631404879; 2558957642150670576; 6878738117920055270; 10603243514388792010; 4640394305517068719; 1193733154221928391; 13044149100772383010; 2267172920248591145; 18372195260968343475; 15751130457462217599; 18182136095274823857; 12311518583907904883; 157951976789965115; 3783994364032175336; 8954795036062628663; 17951502933547484357; 4947149718418859152; 6267139727769326221; 3041866527703475535; 12143642326844777365; 7691916020717842927; 6928696928839027312; 8060476725153551435];
   [15937004449054359482; 18397698281727278122; 8055598615910564456; 15721118009930320759; 18444433103368900349; 17098146066467054978; 8782973438151629321; 17201640688422487174; 3110429329458200130; 7933287186761093459; 11222401499366178261; 10684449173704597041; 5379455183039579488; 8643889966378554265; 8115560425033393505; 1569445810947817276; 3470836650715391926; 3989409809138809691; 107398412264115089; 8110782022081707551; 12249746258543772086; 16213319613665649978; 13580648697460771547; 10357914892710018182; 8297532361042385236; 7109079132510700909; 14547869250552083091; 8271089238564107275; 1135024107461288960; 17008490591577511458; 4960640435451988288; 4794222386470395813; 3954419887465562921; 12743788247204881148; 12848958826741832215; 3555381665266614296; 17131215651007008162; 3040135876360111172; 675017420586417000; 16595427902693814112; 7560644153672532261; 2066825993211077632; 2049615305902343488; 2839049555386607564; 356497411533274894; 13145812519347013134; 8626721651131484642; 7392397415015487903; 162690034919636571; 10310194023207485217; 3447458367831619490; 17005813417838730109; 5867683440183320998; 1077278424031584707; 17591812108152579224; 15899224136523857199; 1564664885260617103; 12838094103605187854; 14999806668558920480; 10385209400350503282; 6550332539010662399; 18086346324028097852; 1424796783075447481; 8552446675216008870];
   [3358232773580485805; 6386657514099857228; 9863129591971687527; 5643468751022991698; 17366809396123085692; 10840579947859291944; 10780225799460621520; 726074987297368189; 16310540677633011948; 3794794681212789490; 7230847995374849724; 13344029339668612553; 15730577644187479903; 9870751591708859911; 14258180855899312121; 12573788500107205324; 7474682306945453077; 8773622933063988524; 5776178289417710878; 9127893086962120472; 12953113769926536050; 16185212312943286873; 11546397177792180341; 6768187360158744701; 423575759202079926; 1169139603381814446; 7444197838829259667; 16633339674398896964; 8885178728110620103; 15785296995136252304; 17943229254959189679; 18263836882381639197; 5794117497820218669; 312333054823197796; 13237844141644362706; 6856790827749604595; 11233845929774007541; 5974768968798874227; 8609215368927350227; 3290963507510208306; 12548280148970197030; 3781848438821695881; 7677206403179897060; 17713942243248759451; 4108895400429900455; 14277199142609428065; 6776975794621546296; 12166584510485427295; 12593269396644521952; 15819529003936691474; 15262688253606045194; 15874846941055082921; 437473176657179824; 12422715309096718364; 7876566393006464175; 4328039674790060514; 5480917041388560411; 14247061724351802263; 3058048627887370209; 10302796345543001920; 7411344167314306401; 11654068580769889492; 14542934857626897116; 6341072846962698718];
   [10347025975252635118; 5568659627956589796; 1593866863282267514; 3880712792954613858; 14253018121174998831; 18285968429401108884; 11693837025330031581; 15991900257779071613; 11358394802258697507; 6867653389204860225; 111763574244224978; 4578827020647079546; 17736869263633876681; 8898610591960597426; 4938876391967781003; 10769817923068380465; 10559091340396636514; 17011140008150058882; 6589186031865323651; 10541800370875287284; 4583594216395448423; 9911435886155904485; 2522422541441816179; 17452957218138437673; 15902471589874984857; 4778603785172369649; 12799979283637736237; 742384368264038773; 11426270906766164499; 15806579410664766557; 11084367173958624748; 17573725098148344445; 6476187252346049296; 10706274085882667861; 15904081601199826312; 4580789023204644005; 945773657727075610; 10179381484835719700; 6147688260408728011; 2339582166561098154; 5112290619099375242; 9432926288394507442; 14395081805447201184; 15900545767425294026; 3784909346201883576; 5572015478672265770; 5020587917492210851; 4419758599345670467; 14898855719076065532; 7924688842189833882; 1602117137172438714; 4696936601959849532; 779951704605537258; 3626263110895495112; 4059487851817368355; 17414525599605978418; 3375240724334087088; 14426967786407694357; 16270906935855756295; 10484272955576203463; 11695920847071812493; 2654755680704450890; 15113730249238648504; 14805668542960040434];
   [110421126841664827; 4996867353967604195; 2656822902087174113; 324674668754656008; 1102793719024194940; 9012478021649171269; 655889710214701478; 14873456380901655229; 12707300328611313366; 7616773967412966393; 93821718276244530; 7448650183994692453; 12608837108375774859; 913242078937230642; 2494637988155484609; 1650552120032187266; 5840237488236806031; 17703795348937187878; 12986613195811390045; 12062047055709966375; 17684490693565466650; 2667897229814287642; 14517144903370610202; 860777110804354499; 3474163842305486997; 1863886709949651297; 8932960221080729454; 7442859026669766281; 6186054819266243144; 10345013379285261591; 1381453779306374474; 13745181985375237908; 561956228187325674; 15872114100772427321; 13985227454442618888; 15022814500914081729; 18241900381090958226; 1622580844254080283; 12389077426203818612; 1059403190636739157; 245416181527204322; 12199048931725149903; 7297661397019940894; 14175149776603335448; 16044759177411932006; 849192541048355316; 5133616724670486472; 1616003426171013536; 17303642166224545666; 17309806620299672217; 14303952929859350292; 15968009124614452220; 11465389784040135563; 2873213383798058206; 1155778545009452296; 2868893869123556002; 12317799655729900826; 4908426750864644922; 14504326497642259024; 11555301771774092226; 14880018179777758387; 9939363249114882666; 4955447017396037442; 18341569772439258525]].
Lemma xorshift_primes : forallb (fun p => eqb_m (mul_m (snd p) (plus_id (pow_m T (quot (fst p))))) id_m) (combine qs inverses) = true.
Proof. vm_compute. reflexivity. Qed.
Lemma combine_has {A B : Type} (l : list A) : forall (m : list B) x, length m = length l -> In x l -> exists y, In (x, y) (combine l m).
Proof.
  induction l as [|a l IH]; intros [|b m] x L J; try contradiction; try discriminate. destruct J as [->|J]; [exists b; left; reflexivity|].
  destruct (IH m x) as (y & Y); [injection L as L; exact L|exact J|]. exists y. right. exact Y.
Qed.
Lemma has_inverse q : In q qs -> exists V, In (q, V) (combine qs inverses).
Proof. apply combine_has. reflexivity. Qed.
Lemma quot_ok : forallb (fun q => Pos.eqb (q * quot q) N64) qs = true.
Proof. reflexivity. Qed.
Lemma qs_product : fold_right Pos.mul 1%positive qs = N64.
Proof. reflexivity. Qed.

(** ** Divisors of the period *)
Lemma ret_mul f v a k : calls f a v = v -> calls f (k * a) v = v.
Proof. intros H. induction k as [|k IH]; [reflexivity|]. cbn [Nat.mul]. rewrite calls_plus, IH. exact H. Qed.
Lemma ret_sub f v a b : (b <= a)%nat -> calls f a v = v -> calls f b v = v -> calls f (a - b) v = v.
Proof. intros L A B. replace a with ((a - b) + b)%nat in A by lia. rewrite calls_plus, B in A. exact A. Qed.
Lemma ret_mod f v a b : b <> 0%nat -> calls f a v = v -> calls f b v = v -> calls f (a mod b) v = v.
Proof.
  intros N A B. rewrite Nat.mod_eq by auto. apply ret_sub; auto.
  - apply Nat.mul_div_le. auto.
  - rewrite Nat.mul_comm. apply ret_mul. exact B.
Qed.
Lemma ret_gcd f v b : forall a, calls f a v = v -> calls f b v = v -> calls f (Nat.gcd b a) v = v.
Proof.
  induction b as [b IH] using (well_founded_induction lt_wf). intros a A B. destruct b as [|b']; [exact A|].
  change (Nat.gcd (S b') a) with (Nat.gcd (a mod (S b')) (S b')). apply IH; auto.
  - apply Nat.mod_upper_bound. lia.
  - apply ret_mod; auto.
Qed.
Lemma prime_divisor : forall k n, (Z.to_nat n < k)%nat -> 1 < n -> exists q, prime q /\ (q | n).
Proof.
  induction k as [|k IH]; intros n K H; [lia|].
  destruct (prime_dec n) as [P|P]; [exists n; split; [exact P|apply Z.divide_refl]|].
  apply not_prime_divide in P; [|exact H]. destruct P as [m [M D]].
  destruct (IH m) as [q [Q1 Q2]]; [lia|lia|]. exists q. split; [exact Q1|]. apply Z.divide_trans with m; auto.
Qed.
Lemma period_gen f v (N : nat) : (0 < N)%nat -> calls f N v = v ->
  (forall q r : nat, prime (Z.of_nat q) -> N = (q * r)%nat -> calls f r v <> v) ->
  forall n, calls f n v = v -> Nat.divide N n.
Proof.
  intros N0 HN HQ n Hn. pose proof (ret_gcd f v N n Hn HN) as G.
  destruct (Nat.gcd_divide_l N n) as [e E]. destruct (Nat.gcd_divide_r N n) as [e' E']. set (d := Nat.gcd N n) in *.
  destruct (Nat.eq_dec e 1) as [->|E1].
  - exists e'. rewrite E' at 1. f_equal. lia.
  - exfalso. assert (0 < e)%nat by (destruct e; lia).
    destruct (prime_divisor (S (Z.to_nat (Z.of_nat e))) (Z.of_nat e)) as [q [Q1 [z Q2]]]; [lia|lia|].
    assert (0 < q) by (destruct Q1; lia). assert (0 < z) by nia.
    apply (HQ (Z.to_nat q) (Z.to_nat z * d)%nat).
    + rewrite Z2Nat.id by lia. exact Q1.
    + rewrite E. assert (e = (Z.to_nat z * Z.to_nat q)%nat) as -> by nia. lia.
    + apply ret_mul. exact G.
Qed.

(** primes by trial division *)
Fixpoint no_divisor (p : Z) (k : nat) : bool :=
  match k with O => true | S k => (if Z.of_nat k <? 2 then true else negb (p mod Z.of_nat k =? 0)) && no_divisor p k end.
Lemma no_divisor_ok p k : no_divisor p k = true -> forall j, 2 <= j < Z.of_nat k -> ~ (j | p).
Proof.
  induction k as [|k IH]; intros H j J; [lia|]. cbn [no_divisor] in H. apply andb_prop in H. destruct H as [H1 H2].
  destruct (Z.eq_dec j (Z.of_nat k)) as [->|N].
  - replace (Z.of_nat k <? 2) with false in H1 by lia. intros D. apply Z.mod_divide in D; [|lia]. lia.
  - apply IH; auto. lia.
Qed.
Lemma prime_ok p k : 1 < p -> p < Z.of_nat k * Z.of_nat k -> no_divisor p k = true -> prime p.
Proof.
  intros P K H. apply prime_alt. split; [exact P|]. intros n N [m D].
  pose proof (no_divisor_ok p k H) as X.
  destruct (Z_lt_le_dec n (Z.of_nat k)) as [C|C].
  - apply (X n); [lia|]. exists m. exact D.
  - apply (X m); [|exists n; lia]. nia.
Qed.
Lemma qs_prime : Forall (fun q => prime (Z.pos q)) qs.
Proof.
  unfold qs. repeat apply Forall_cons; try apply Forall_nil.
  - apply prime_ok with 3%nat; [lia|lia|reflexivity].
  - apply prime_ok with 3%nat; [lia|lia|reflexivity].
  - apply prime_ok with 5%nat; [lia|lia|reflexivity].
  - apply prime_ok with 17%nat; [lia|lia|reflexivity].
  - apply prime_ok with 26%nat; [lia|lia|reflexivity].
  - apply prime_ok with (Z.to_nat 257); [lia|lia|vm_compute; reflexivity].
  - apply prime_ok with (Z.to_nat 2600); [lia|lia|vm_compute; reflexivity].
Qed.
Lemma prime_in (l : list positive) q : prime q -> Forall (fun p => prime (Z.pos p)) l -> (q | Z.pos (fold_right Pos.mul 1%positive l)) ->
  exists p, In p l /\ q = Z.pos p.
Proof.
  intros Q L. induction L as [|p l P L IH]; intros D.
  - exfalso. cbn in D. apply Z.divide_1_r_nonneg in D; destruct Q; lia.
  - cbn [fold_right] in D. rewrite Pos2Z.inj_mul in D. apply prime_mult in D; [|exact Q]. destruct D as [D|D].
    + exists p. split; [left; reflexivity|]. apply prime_div_prime; auto.
    + destruct IH as [p' [I E]]; [exact D|]. exists p'. split; [right; exact I|exact E].
Qed.

(** ** The cycle *)
Lemma step_app v n : state64 v -> calls (app_m T) n v = calls xorshift_step n v /\ state64 (calls xorshift_step n v).
Proof.
  intros V. induction n as [|n [IH1 IH2]]; [split; [reflexivity|exact V]|]. rewrite !calls_S, IH1. split.
  - apply columns_ok; [apply xorshift_linear|exact IH2].
  - apply xorshift_bij. exact IH2.
Qed.
Lemma eqb_m_ok M N : eqb_m M N = true -> M = N.
Proof. unfold eqb_m. destruct (list_eq_dec Z.eq_dec M N); [auto|discriminate]. Qed.
Lemma order_v v : state64 v -> calls xorshift_step (Pos.to_nat N64) v = v.
Proof.
  intros V. rewrite <- (proj1 (step_app v (Pos.to_nat N64) V)). rewrite <- pow_m_ok.
  rewrite (eqb_m_ok _ _ xorshift_order). apply id_m_ok. exact V.
Qed.
Lemma calls_zero M n : calls (app_m M) (S n) 0 = 0.
Proof.
  induction n as [|n IH]; [apply app_linear|]. rewrite calls_S, IH. apply app_linear.
Qed.
Lemma no_fixed v q : state64 v -> v <> 0 -> In q qs -> calls xorshift_step (Pos.to_nat (quot q)) v <> v.
Proof.
  intros V V0 Q E. apply V0. rewrite <- (proj1 (step_app v (Pos.to_nat (quot q)) V)) in E. rewrite <- pow_m_ok in E.
  set (M := pow_m T (quot q)) in *.
  assert (app_m (plus_id M) v = 0) as Z0.
  { unfold plus_id. rewrite columns_ok; [|apply plus_id_linear|exact V]. rewrite E. apply Z.lxor_nilpotent. }
  destruct (has_inverse q Q) as (I & J). pose proof xorshift_primes as X. rewrite forallb_forall in X. specialize (X (q, I) J). cbn [fst snd] in X. apply eqb_m_ok in X. fold M in X.
  rewrite <- (id_m_ok v V), <- X, mul_m_ok, Z0. apply app_linear.
Qed.
Lemma xorshift_period v n : state64 v -> v <> 0 -> calls xorshift_step n v = v -> Nat.divide (Pos.to_nat N64) n.
Proof.
  intros V V0 H. revert n H. apply period_gen.
  - apply Pos2Nat.is_pos.
  - apply order_v. exact V.
  - intros q r Q E.
    destruct (prime_in qs (Z.of_nat q) Q qs_prime) as [p [P1 P2]].
    { rewrite qs_product. exists (Z.of_nat r). rewrite <- positive_nat_Z, E. lia. }
    pose proof quot_ok as X. rewrite forallb_forall in X. specialize (X p P1). apply Pos.eqb_eq in X.
    assert (r = Pos.to_nat (quot p)) as ->.
    { apply Nat2Z.inj. rewrite positive_nat_Z. apply Z.mul_cancel_l with (Z.of_nat q); [destruct Q; lia|].
      rewrite P2 at 2. rewrite <- Pos2Z.inj_mul, X, <- positive_nat_Z, E. lia. }
    apply no_fixed; auto.
Qed.
Lemma xorshift_cycle s : state64 s -> s <> 0 ->
  (forall i j : nat, Z.of_nat i < 2 ^ 64 - 1 -> Z.of_nat j < 2 ^ 64 - 1 -> calls xorshift_step i s = calls xorshift_step j s -> i = j) /\
  (forall n : nat, Z.of_nat n = 2 ^ 64 - 1 -> calls xorshift_step n s = s).
Proof.
  intros V V0. split.
  - assert (forall i j : nat, (i <= j)%nat -> Z.of_nat j < 2 ^ 64 - 1 -> calls xorshift_step i s = calls xorshift_step j s -> i = j) as X.
    { intros i j L J E. replace j with ((j - i) + i)%nat in E by lia. rewrite calls_plus in E. symmetry in E.
      apply xorshift_period in E.
      - destruct (Nat.eq_dec i j) as [|N]; [auto|]. destruct E as [z E].
        assert (Z.of_nat (j - i) = Z.of_nat z * Z.pos N64) as E2 by (rewrite E, Nat2Z.inj_mul, positive_nat_Z; reflexivity).
        unfold N64 in E2. destruct z; lia.
      - apply step_app. exact V.
      - clear - V V0. induction i as [|i IH]; [exact V0|]. rewrite calls_S. apply xorshift_nonzero; [apply step_app; exact V|exact IH]. }
    intros i j I J E. destruct (Nat.le_gt_cases i j); [apply X; auto; lia|symmetry; apply X; auto; lia].
  - intros n N. replace n with (Pos.to_nat N64) by (apply Nat2Z.inj; rewrite positive_nat_Z, N; reflexivity).
    apply order_v. exact V.
Qed.
