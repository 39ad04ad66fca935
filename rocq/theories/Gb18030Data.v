(** GB18030 two-byte codes of the 2048 characters of the Simplified Chinese word list: the part of
    crate encoding 0.2.33 ([GB18030_ENCODING], not part of /repo) that src/bip39/mnemonic.rs:262-273 can reach.
    Generated by tools/gen_gb.py from Python's gb18030 codec. *)
From Coq Require Import List NArith.
Import ListNotations.
Open Scope N_scope.
(** character, lead byte, trail byte *)
Definition gb_0 : list (N * (N * N)) := [
(30340,(181,196));
(19968,(210,187));
(26159,(202,199));
(22312,(212,218));
(19981,(178,187));
(20102,(193,203));
(26377,(211,208));
(21644,(186,205));
(20154,(200,203));
(36825,(213,226));
(20013,(214,208));
(22823,(180,243));
(20026,(206,170));
(19978,(201,207));
(20010,(184,246));
(22269,(185,250));
(25105,(206,210));
(20197,(210,212));
(35201,(210,170));
(20182,(203,251));
(26102,(202,177));
(26469,(192,180));
(29992,(211,195));
(20204,(195,199));
(29983,(201,250));
(21040,(181,189));
(20316,(215,247));
(22320,(181,216));
(20110,(211,218));
(20986,(179,246));
(23601,(190,205));
(20998,(183,214));
(23545,(182,212));
(25104,(179,201));
(20250,(187,225));
(21487,(191,201));
(20027,(214,247));
(21457,(183,162));
(24180,(196,234));
(21160,(182,175));
(21516,(205,172));
(24037,(185,164));
(20063,(210,178));
(33021,(196,220));
(19979,(207,194));
(36807,(185,253));
(23376,(215,211));
(35828,(203,181));
(20135,(178,250));
(31181,(214,214));
(38754,(195,230));
(32780,(182,248));
(26041,(183,189));
(21518,(186,243));
(22810,(182,224));
(23450,(182,168));
(34892,(208,208));
(23398,(209,167));
(27861,(183,168));
(25152,(203,249));
(27665,(195,241));
(24471,(181,195));
(32463,(190,173));
(21313,(202,174));
(19977,(200,253));
(20043,(214,174));
(36827,(189,248));
(30528,(215,197));
(31561,(181,200));
(37096,(178,191));
(24230,(182,200));
(23478,(188,210));
(30005,(181,231));
(21147,(193,166));
(37324,(192,239));
(22914,(200,231));
(27700,(203,174));
(21270,(187,175));
(39640,(184,223));
(33258,(215,212));
(20108,(182,254));
(29702,(192,237));
(36215,(198,240));
(23567,(208,161));
(29289,(206,239));
(29616,(207,214));
(23454,(202,181));
(21152,(188,211));
(37327,(193,191));
(37117,(182,188));
(20004,(193,189));
(20307,(204,229));
(21046,(214,198));
(26426,(187,250));
(24403,(181,177));
(20351,(202,185));
(28857,(181,227));
(20174,(180,211));
(19994,(210,181));
(26412,(177,190));
(21435,(200,165));
(25226,(176,209));
(24615,(208,212));
(22909,(186,195));
(24212,(211,166));
(24320,(191,170));
(23427,(203,252));
(21512,(186,207));
(36824,(187,185));
(22240,(210,242));
(30001,(211,201));
(20854,(198,228));
(20123,(208,169));
(28982,(200,187));
(21069,(199,176));
(22806,(205,226));
(22825,(204,236));
(25919,(213,254));
(22235,(203,196));
(26085,(200,213));
(37027,(196,199));
(31038,(201,231));
(20041,(210,229));
(20107,(202,194));
(24179,(198,189));
(24418,(208,206));
(30456,(207,224));
(20840,(200,171));
(34920,(177,237));
(38388,(188,228));
(26679,(209,249));
(19982,(211,235));
(20851,(185,216));
(21508,(184,247));
(37325,(214,216));
(26032,(208,194));
(32447,(207,223));
(20869,(196,218));
(25968,(202,253));
(27491,(213,253));
(24515,(208,196));
(21453,(183,180));
(20320,(196,227));
(26126,(195,247));
(30475,(191,180));
(21407,(212,173));
(21448,(211,214));
(20040,(195,180));
(21033,(192,251));
(27604,(177,200));
(25110,(187,242));
(20294,(181,171));
(36136,(214,202));
(27668,(198,248));
(31532,(181,218));
(21521,(207,242));
(36947,(181,192));
(21629,(195,252));
(27492,(180,203));
(21464,(177,228));
(26465,(204,245));
(21482,(214,187));
(27809,(195,187));
(32467,(189,225));
(35299,(189,226));
(38382,(206,202));
(24847,(210,226));
(24314,(189,168));
(26376,(212,194));
(20844,(185,171));
(26080,(206,222));
(31995,(207,181));
(20891,(190,252));
(24456,(186,220));
(24773,(199,233));
(32773,(213,223));
(26368,(215,238));
(31435,(193,162));
(20195,(180,250));
(24819,(207,235));
(24050,(210,209));
(36890,(205,168));
(24182,(178,162));
(25552,(204,225));
(30452,(214,177));
(39064,(204,226));
(20826,(181,179));
(31243,(179,204));
(23637,(213,185));
(20116,(206,229));
(26524,(185,251));
(26009,(193,207));
(35937,(207,243));
(21592,(212,177));
(38761,(184,239));
(20301,(206,187));
(20837,(200,235));
(24120,(179,163));
(25991,(206,196));
(24635,(215,220));
(27425,(180,206));
(21697,(198,183));
(24335,(202,189));
(27963,(187,238));
(35774,(201,232));
(21450,(188,176));
(31649,(185,220));
(29305,(204,216));
(20214,(188,254));
(38271,(179,164));
(27714,(199,243));
(32769,(192,207));
(22836,(205,183));
(22522,(187,249));
(36164,(215,202));
(36793,(177,223));
(27969,(193,247));
(36335,(194,183));
(32423,(188,182));
(23569,(201,217));
(22270,(205,188));
(23665,(201,189));
(32479,(205,179));
(25509,(189,211));
(30693,(214,170));
(36739,(189,207));
(23558,(189,171));
(32452,(215,233));
(35265,(188,251));
(35745,(188,198));
(21035,(177,240));
(22905,(203,253));
(25163,(202,214));
(35282,(189,199));
(26399,(198,218));
(26681,(184,249));
(35770,(194,219));
(36816,(212,203));
(20892,(197,169));
(25351,(214,184));
(20960,(188,184));
(20061,(190,197));
(21306,(199,248));
(24378,(199,191));
(25918,(183,197));
(20915,(190,246));
(35199,(206,247));
(34987,(177,187));
(24178,(184,201));
(20570,(215,246));
(24517,(177,216));
(25112,(213,189));
(20808,(207,200));
(22238,(187,216));
(21017,(212,242));
(20219,(200,206));
(21462,(200,161));
(25454,(190,221));
(22788,(180,166));
(38431,(182,211));
(21335,(196,207));
(32473,(184,248));
(33394,(201,171));
(20809,(185,226));
(38376,(195,197));
(21363,(188,180));
(20445,(177,163));
(27835,(214,206));
(21271,(177,177));
(36896,(212,236));
(30334,(176,217));
(35268,(185,230));
(28909,(200,200));
(39046,(193,236));
(19971,(198,223));
(28023,(186,163));
(21475,(191,218));
(19996,(182,171));
(23548,(181,188));
(22120,(198,247));
(21387,(209,185));
(24535,(214,190));
(19990,(202,192));
(37329,(189,240));
(22686,(212,246));
(20105,(213,249));
(27982,(188,195));
(38454,(189,215));
(27833,(211,205));
(24605,(203,188));
(26415,(202,245));
(26497,(188,171));
(20132,(189,187));
(21463,(202,220));
(32852,(193,170));
(20160,(202,178));
(35748,(200,207));
(20845,(193,249));
(20849,(185,178));
(26435,(200,168));
(25910,(202,213));
(35777,(214,164));
(25913,(184,196));
(28165,(199,229));
(32654,(195,192));
(20877,(212,217));
(37319,(178,201));
(36716,(215,170));
(26356,(184,252));
(21333,(181,165));
(39118,(183,231));
(20999,(199,208));
(25171,(180,242));
(30333,(176,215));
(25945,(189,204));
(36895,(203,217));
(33457,(187,168));
(24102,(180,248));
(23433,(176,178));
(22330,(179,161));
(36523,(201,237));
(36710,(179,181));
(20363,(192,253));
(30495,(213,230));
(21153,(206,241));
(20855,(190,223));
(19975,(205,242));
(27599,(195,191));
(30446,(196,191));
(33267,(214,193));
(36798,(180,239));
(36208,(215,223));
(31215,(187,253));
(31034,(202,190));
(35758,(210,233));
(22768,(201,249));
(25253,(177,168));
(26007,(182,183));
(23436,(205,234));
(31867,(192,224));
(20843,(176,203));
(31163,(192,235));
(21326,(187,170));
(21517,(195,251));
(30830,(200,183));
(25165,(178,197));
(31185,(191,198));
(24352,(213,197));
(20449,(208,197));
(39532,(194,237));
(33410,(189,218));
(35805,(187,176));
(31859,(195,215));
(25972,(213,251));
(31354,(191,213));
(20803,(212,170));
(20917,(191,246));
(20170,(189,241));
(38598,(188,175));
(28201,(206,194));
(20256,(180,171));
(22303,(205,193));
(35768,(208,237));
(27493,(178,189));
(32676,(200,186));
(24191,(185,227));
(30707,(202,175));
(35760,(188,199));
(38656,(208,232));
(27573,(182,206));
(30740,(209,208));
(30028,(189,231));
(25289,(192,173));
(26519,(193,214));
(24459,(194,201));
(21483,(189,208));
(19988,(199,210));
(31350,(190,191));
(35266,(185,219));
(36234,(212,189));
(32455,(214,175));
(35013,(215,176));
(24433,(211,176));
(31639,(203,227));
(20302,(181,205));
(25345,(179,214));
(38899,(210,244));
(20247,(214,218));
(20070,(202,233));
(24067,(178,188));
(22797,(184,180));
(23481,(200,221));
(20799,(182,249));
(39035,(208,235));
(38469,(188,202));
(21830,(201,204));
(38750,(183,199));
(39564,(209,233));
(36830,(193,172));
(26029,(182,207));
(28145,(201,238));
(38590,(196,209));
(36817,(189,252));
(30719,(191,243));
(21315,(199,167));
(21608,(214,220));
(22996,(206,175));
(32032,(203,216));
(25216,(188,188));
(22791,(177,184));
(21322,(176,235));
(21150,(176,236));
(38738,(199,224));
(30465,(202,161));
(21015,(193,208));
(20064,(207,176));
(21709,(207,236));
(32422,(212,188));
(25903,(214,167));
(33324,(176,227));
(21490,(202,183));
(24863,(184,208));
(21171,(192,205));
(20415,(177,227));
(22242,(205,197));
(24448,(205,249));
(37240,(203,225));
(21382,(192,250));
(24066,(202,208));
(20811,(191,203));
(20309,(186,206));
(38500,(179,253));
(28040,(207,251));
(26500,(185,185));
(24220,(184,174));
(31216,(179,198));
(22826,(204,171));
(20934,(215,188));
(31934,(190,171));
(20540,(214,181));
(21495,(186,197));
(29575,(194,202));
(26063,(215,229));
(32500,(206,172));
(21010,(187,174));
(36873,(209,161));
(26631,(177,234));
(20889,(208,180));
(23384,(180,230));
(20505,(186,242));
(27611,(195,171));
(20146,(199,215));
(24555,(191,236));
(25928,(208,167));
(26031,(203,185));
(38498,(212,186));
(26597,(178,233));
(27743,(189,173));
(22411,(208,205));
(30524,(209,219));
(29579,(205,245));
(25353,(176,180));
(26684,(184,241));
(20859,(209,248));
(26131,(210,215));
(32622,(214,195));
(27966,(197,201));
(23618,(178,227));
(29255,(198,172));
(22987,(202,188));
(21364,(200,180));
(19987,(215,168));
(29366,(215,180));
(32946,(211,253));
(21378,(179,167));
(20140,(190,169));
(35782,(202,182));
(36866,(202,202));
(23646,(202,244));
(22278,(212,178));
(21253,(176,252));
(28779,(187,240));
(20303,(215,161));
(35843,(181,247));
(28385,(194,250));
(21439,(207,216));
(23616,(190,214));
(29031,(213,213));
(21442,(178,206));
(32418,(186,236));
(32454,(207,184));
(24341,(210,253));
(21548,(204,253));
(35813,(184,195));
(38081,(204,250));
(20215,(188,219));
(20005,(209,207));
(39318,(202,215));
(24213,(181,215));
(28082,(210,186));
(23448,(185,217));
(24503,(181,194));
(38543,(203,230));
(30149,(178,161));
(33487,(203,213));
(22833,(202,167));
(23572,(182,251));
(27515,(203,192));
(35762,(189,178));
(37197,(197,228));
(22899,(197,174));
(40644,(187,198))].
Definition gb_1 : list (N * (N * N)) := [
(25512,(205,198));
(26174,(207,212));
(35848,(204,184));
(32618,(215,239));
(31070,(201,241));
(33402,(210,213));
(21602,(196,216));
(24109,(207,175));
(21547,(186,172));
(20225,(198,243));
(26395,(205,251));
(23494,(195,220));
(25209,(197,250));
(33829,(211,170));
(39033,(207,238));
(38450,(183,192));
(20030,(190,217));
(29699,(199,242));
(33521,(211,162));
(27687,(209,245));
(21183,(202,198));
(21578,(184,230));
(26446,(192,238));
(21488,(204,168));
(33853,(194,228));
(26408,(196,190));
(24110,(176,239));
(36718,(194,214));
(30772,(198,198));
(20122,(209,199));
(24072,(202,166));
(22260,(206,167));
(27880,(215,162));
(36828,(212,182));
(23383,(215,214));
(26448,(178,196));
(25490,(197,197));
(20379,(185,169));
(27827,(186,211));
(24577,(204,172));
(23553,(183,226));
(21478,(193,237));
(26045,(202,169));
(20943,(188,245));
(26641,(202,247));
(28342,(200,220));
(24590,(212,245));
(27490,(214,185));
(26696,(176,184));
(35328,(209,212));
(22763,(202,191));
(22343,(190,249));
(27494,(206,228));
(22266,(185,204));
(21494,(210,182));
(40060,(211,227));
(27874,(178,168));
(35270,(202,211));
(20165,(189,246));
(36153,(183,209));
(32039,(189,244));
(29233,(176,174));
(24038,(215,243));
(31456,(213,194));
(26089,(212,231));
(26397,(179,175));
(23475,(186,166));
(32493,(208,248));
(36731,(199,225));
(26381,(183,254));
(35797,(202,212));
(39135,(202,179));
(20805,(179,228));
(20853,(177,248));
(28304,(212,180));
(21028,(197,208));
(25252,(187,164));
(21496,(203,190));
(36275,(215,227));
(26576,(196,179));
(32451,(193,183));
(24046,(178,238));
(33268,(214,194));
(26495,(176,229));
(30000,(204,239));
(38477,(189,181));
(40657,(186,218));
(29359,(183,184));
(36127,(184,186));
(20987,(187,247));
(33539,(183,182));
(32487,(188,204));
(20852,(208,203));
(20284,(203,198));
(20313,(211,224));
(22362,(188,225));
(26354,(199,250));
(36755,(202,228));
(20462,(208,222));
(25925,(185,202));
(22478,(179,199));
(22827,(183,242));
(22815,(185,187));
(36865,(203,205));
(31508,(177,202));
(33337,(180,172));
(21344,(213,188));
(21491,(211,210));
(36130,(178,198));
(21507,(179,212));
(23500,(184,187));
(26149,(180,186));
(32844,(214,176));
(35273,(190,245));
(27721,(186,186));
(30011,(187,173));
(21151,(185,166));
(24052,(176,205));
(36319,(184,250));
(34429,(203,228));
(26434,(212,211));
(39134,(183,201));
(26816,(188,236));
(21560,(206,252));
(21161,(214,250));
(21319,(201,253));
(38451,(209,244));
(20114,(187,165));
(21021,(179,245));
(21019,(180,180));
(25239,(191,185));
(32771,(191,188));
(25237,(205,182));
(22351,(187,181));
(31574,(178,223));
(21476,(185,197));
(24452,(190,182));
(25442,(187,187));
(26410,(206,180));
(36305,(197,220));
(30041,(193,244));
(38050,(184,214));
(26366,(212,248));
(31471,(182,203));
(36131,(212,240));
(31449,(213,190));
(31616,(188,242));
(36848,(202,246));
(38065,(199,174));
(21103,(184,177));
(23613,(190,161));
(24093,(181,219));
(23556,(201,228));
(33609,(178,221));
(20914,(179,229));
(25215,(179,208));
(29420,(182,192));
(20196,(193,238));
(38480,(207,222));
(38463,(176,162));
(23459,(208,251));
(29615,(187,183));
(21452,(203,171));
(35831,(199,235));
(36229,(179,172));
(24494,(206,162));
(35753,(200,195));
(25511,(191,216));
(24030,(214,221));
(33391,(193,188));
(36724,(214,225));
(25214,(213,210));
(21542,(183,241));
(32426,(188,205));
(30410,(210,230));
(20381,(210,192));
(20248,(211,197));
(39030,(182,165));
(30784,(180,161));
(36733,(212,216));
(20498,(181,185));
(25151,(183,191));
(31361,(205,187));
(22352,(215,248));
(31881,(183,219));
(25932,(181,208));
(30053,(194,212));
(23458,(191,205));
(34945,(212,172));
(20919,(192,228));
(32988,(202,164));
(32477,(190,248));
(26512,(206,246));
(22359,(191,233));
(21058,(188,193));
(27979,(178,226));
(19997,(203,191));
(21327,(208,173));
(35785,(203,223));
(24565,(196,238));
(38472,(179,194));
(20173,(200,212));
(32599,(194,222));
(30416,(209,206));
(21451,(211,209));
(27915,(209,243));
(38169,(180,237));
(33510,(191,224));
(22812,(210,185));
(21009,(208,204));
(31227,(210,198));
(39057,(198,181));
(36880,(214,240));
(38752,(191,191));
(28151,(187,236));
(27597,(196,184));
(30701,(182,204));
(30382,(198,164));
(32456,(214,213));
(32858,(190,219));
(27773,(198,251));
(26449,(180,229));
(20113,(212,198));
(21738,(196,196));
(26082,(188,200));
(36317,(190,224));
(21355,(206,192));
(20572,(205,163));
(28872,(193,210));
(22830,(209,235));
(23519,(178,236));
(28903,(201,213));
(36805,(209,184));
(22659,(190,179));
(33509,(200,244));
(21360,(211,161));
(27954,(214,222));
(21051,(191,204));
(25324,(192,168));
(28608,(188,164));
(23380,(191,215));
(25630,(184,227));
(29978,(201,245));
(23460,(202,210));
(24453,(180,253));
(26680,(186,203));
(26657,(208,163));
(25955,(201,162));
(20405,(199,214));
(21543,(176,201));
(30002,(188,215));
(28216,(211,206));
(20037,(190,195));
(33756,(178,203));
(21619,(206,182));
(26087,(190,201));
(27169,(196,163));
(28246,(186,254));
(36135,(187,245));
(25439,(203,240));
(39044,(212,164));
(38459,(215,232));
(27627,(186,193));
(26222,(198,213));
(31283,(206,200));
(20057,(210,210));
(22920,(194,232));
(26893,(214,178));
(24687,(207,162));
(25193,(192,169));
(38134,(210,248));
(35821,(211,239));
(25381,(187,211));
(37202,(190,198));
(23432,(202,216));
(25343,(196,195));
(24207,(208,242));
(32440,(214,189));
(21307,(210,189));
(32570,(200,177));
(38632,(211,234));
(21527,(194,240));
(38024,(213,235));
(21016,(193,245));
(21834,(176,161));
(24613,(188,177));
(21809,(179,170));
(35823,(206,243));
(35757,(209,181));
(24895,(212,184));
(23457,(201,243));
(38468,(184,189));
(33719,(187,241));
(33590,(178,232));
(40092,(207,202));
(31918,(193,184));
(26020,(189,239));
(23401,(186,162));
(33073,(205,209));
(30827,(193,242));
(32933,(183,202));
(21892,(201,198));
(40857,(193,250));
(28436,(209,221));
(29238,(184,184));
(28176,(189,165));
(34880,(209,170));
(27426,(187,182));
(26800,(208,181));
(25484,(213,198));
(27468,(184,232));
(27801,(201,179));
(21018,(184,213));
(25915,(185,165));
(35859,(206,189));
(30462,(182,220));
(35752,(204,214));
(26202,(205,237));
(31890,(193,163));
(20081,(194,210));
(29123,(200,188));
(30683,(195,172));
(20046,(186,245));
(26432,(201,177));
(33647,(210,169));
(23425,(196,254));
(40065,(194,179));
(36149,(185,243));
(38047,(214,211));
(29028,(195,186));
(35835,(182,193));
(29677,(176,224));
(20271,(178,174));
(39321,(207,227));
(20171,(189,233));
(36843,(198,200));
(21477,(190,228));
(20016,(183,225));
(22521,(197,224));
(25569,(206,213));
(20848,(192,188));
(25285,(181,163));
(24358,(207,210));
(34507,(181,176));
(27785,(179,193));
(20551,(188,217));
(31359,(180,169));
(25191,(214,180));
(31572,(180,240));
(20048,(192,214));
(35841,(203,173));
(39034,(203,179));
(28895,(209,204));
(32553,(203,245));
(24449,(213,247));
(33080,(193,179));
(21916,(207,178));
(26494,(203,201));
(33050,(189,197));
(22256,(192,167));
(24322,(210,236));
(20813,(195,226));
(32972,(177,179));
(26143,(208,199));
(31119,(184,163));
(20080,(194,242));
(26579,(200,190));
(20117,(190,174));
(27010,(184,197));
(24930,(194,253));
(24597,(197,194));
(30913,(180,197));
(20493,(177,182));
(31062,(215,230));
(30343,(187,202));
(20419,(180,217));
(38745,(190,178));
(34917,(178,185));
(35780,(198,192));
(32763,(183,173));
(32905,(200,226));
(36341,(188,249));
(23612,(196,225));
(34915,(210,194));
(23485,(191,237));
(25196,(209,239));
(26825,(195,222));
(24076,(207,163));
(20260,(201,203));
(25805,(178,217));
(22402,(180,185));
(31179,(199,239));
(23452,(210,203));
(27682,(199,226));
(22871,(204,215));
(30563,(182,189));
(25391,(213,241));
(26550,(188,220));
(20142,(193,193));
(26411,(196,169));
(23466,(207,220));
(24198,(199,236));
(32534,(177,224));
(29275,(197,163));
(35302,(180,165));
(26144,(211,179));
(38647,(192,215));
(38144,(207,250));
(35799,(202,171));
(24231,(215,249));
(23621,(190,211));
(25235,(215,165));
(35010,(193,209));
(32990,(176,251));
(21628,(186,244));
(23064,(196,239));
(26223,(190,176));
(23041,(205,254));
(32511,(194,204));
(26230,(190,167));
(21402,(186,241));
(30431,(195,203));
(34913,(186,226));
(40481,(188,166));
(23385,(203,239));
(24310,(209,211));
(21361,(206,163));
(33014,(189,186));
(23627,(206,221));
(20065,(207,231));
(20020,(193,217));
(38470,(194,189));
(39038,(185,203));
(25481,(181,244));
(21568,(209,189));
(28783,(181,198));
(23681,(203,234));
(25514,(180,235));
(26463,(202,248));
(32784,(196,205));
(21095,(190,231));
(29577,(211,241));
(36213,(213,212));
(36339,(204,248));
(21733,(184,231));
(23395,(188,190));
(35838,(191,206));
(20975,(191,173));
(32993,(186,250));
(39069,(182,238));
(27454,(191,238));
(32461,(201,220));
(21367,(190,237));
(40784,(198,235));
(20255,(206,176));
(33976,(213,244));
(27542,(214,179));
(27704,(211,192));
(23447,(215,218));
(33495,(195,231));
(24029,(180,168));
(28809,(194,175));
(23721,(209,210));
(24369,(200,245));
(38646,(193,227));
(26472,(209,238));
(22863,(215,224));
(27839,(209,216));
(38706,(194,182));
(26438,(184,203));
(25506,(204,189));
(28369,(187,172));
(38215,(213,242));
(39277,(183,185));
(27987,(197,168));
(33322,(186,189));
(24576,(187,179));
(36214,(184,207));
(24211,(191,226));
(22842,(182,225));
(20234,(210,193));
(28789,(193,233));
(31246,(203,176));
(36884,(205,190));
(28781,(195,240));
(36187,(200,252));
(24402,(185,233));
(21484,(213,217));
(40723,(185,196));
(25773,(178,165));
(30424,(197,204));
(35009,(178,195));
(38505,(207,213));
(24247,(191,181));
(21807,(206,168));
(24405,(194,188));
(33740,(190,250));
(32431,(180,191));
(20511,(189,232));
(31958,(204,199));
(30422,(184,199));
(27178,(186,225));
(31526,(183,251));
(31169,(203,189));
(21162,(197,172));
(22530,(204,195));
(22495,(211,242));
(26538,(199,185));
(28070,(200,243));
(24133,(183,249));
(21704,(185,254));
(31455,(190,185))].
Definition gb_2 : list (N * (N * N)) := [
(29087,(202,236));
(34411,(179,230));
(27901,(212,243));
(33041,(196,212));
(22756,(200,192));
(30899,(204,188));
(27431,(197,183));
(36941,(177,233));
(20391,(178,224));
(23528,(213,175));
(25954,(184,210));
(24443,(179,185));
(34385,(194,199));
(26012,(208,177));
(34180,(177,161));
(24237,(205,165));
(32435,(196,201));
(24377,(181,175));
(39282,(203,199));
(20280,(201,236));
(25240,(213,219));
(40614,(194,243));
(28287,(202,170));
(26263,(176,181));
(33655,(186,201));
(29926,(205,223));
(22622,(200,251));
(24202,(180,178));
(31569,(214,254));
(24694,(182,241));
(25143,(187,167));
(35775,(183,195));
(22612,(203,254));
(22855,(198,230));
(36879,(205,184));
(26753,(193,186));
(20992,(181,182));
(26059,(208,253));
(36857,(188,163));
(21345,(191,168));
(27695,(194,200));
(36935,(211,246));
(20221,(183,221));
(27602,(182,190));
(27877,(196,224));
(36864,(205,203));
(27927,(207,180));
(25670,(176,218));
(28784,(187,210));
(24425,(178,202));
(21334,(194,244));
(32791,(186,196));
(22799,(207,196));
(25321,(212,241));
(24537,(195,166));
(38108,(205,173));
(29486,(207,215));
(30828,(211,178));
(20104,(211,232));
(32321,(183,177));
(22280,(200,166));
(38634,(209,169));
(20989,(186,175));
(20134,(210,224));
(25277,(179,233));
(31687,(198,170));
(38453,(213,243));
(38452,(210,245));
(19969,(182,161));
(23610,(179,223));
(36861,(215,183));
(22534,(182,209));
(38596,(208,219));
(36814,(211,173));
(27867,(183,186));
(29240,(176,214));
(27004,(194,165));
(36991,(177,220));
(35851,(196,177));
(21544,(182,214));
(37326,(210,176));
(29482,(214,237));
(26071,(198,236));
(32047,(192,219));
(20559,(198,171));
(20856,(181,228));
(39302,(185,221));
(32034,(203,247));
(31206,(199,216));
(33026,(214,172));
(28526,(179,177));
(29239,(210,175));
(35910,(182,185));
(24573,(186,246));
(25176,(205,208));
(24778,(190,170));
(22609,(203,220));
(36951,(210,197));
(24840,(211,250));
(26417,(214,236));
(26367,(204,230));
(32420,(207,203));
(31895,(180,214));
(20542,(199,227));
(23578,(201,208));
(30171,(205,180));
(26970,(179,254));
(35874,(208,187));
(22859,(183,220));
(36141,(185,186));
(30952,(196,165));
(21531,(190,253));
(27744,(179,216));
(26049,(197,212));
(30862,(203,233));
(39592,(185,199));
(30417,(188,224));
(25429,(178,182));
(24351,(181,220));
(26292,(177,169));
(21106,(184,238));
(36143,(185,225));
(27530,(202,226));
(37322,(202,205));
(35789,(180,202));
(20129,(205,246));
(22721,(177,218));
(39039,(182,217));
(23453,(177,166));
(21320,(206,231));
(23576,(179,190));
(38395,(206,197));
(25581,(189,210));
(28846,(197,218));
(27531,(178,208));
(20908,(182,172));
(26725,(199,197));
(22919,(184,190));
(35686,(190,175));
(32508,(215,219));
(25307,(213,208));
(21556,(206,226));
(20184,(184,182));
(28014,(184,161));
(36973,(212,226));
(24464,(208,236));
(24744,(196,250));
(25671,(210,161));
(35895,(185,200));
(36190,(212,222));
(31665,(207,228));
(38548,(184,244));
(35746,(182,169));
(30007,(196,208));
(21561,(180,181));
(22253,(212,176));
(32439,(183,215));
(21776,(204,198));
(36133,(176,220));
(23435,(203,206));
(29627,(178,163));
(24040,(190,222));
(32789,(184,251));
(22374,(204,185));
(33635,(200,217));
(38381,(177,213));
(28286,(205,229));
(38190,(188,252));
(20961,(183,178));
(39547,(215,164));
(38149,(185,248));
(25937,(190,200));
(24681,(182,247));
(21093,(176,254));
(20957,(196,253));
(30897,(188,238));
(40831,(179,221));
(25130,(189,216));
(28860,(193,182));
(40635,(194,233));
(32442,(183,196));
(31105,(189,251));
(24223,(183,207));
(30427,(202,162));
(29256,(176,230));
(32531,(187,186));
(20928,(190,187));
(30555,(190,166));
(26124,(178,253));
(23130,(187,233));
(28041,(201,230));
(31570,(205,178));
(22068,(215,236));
(25554,(178,229));
(23736,(176,182));
(26391,(192,202));
(24196,(215,175));
(34903,(189,214));
(34255,(178,216));
(22993,(185,195));
(36152,(195,179));
(33104,(184,175));
(22900,(197,171));
(21862,(192,178));
(24815,(185,223));
(20056,(179,203));
(20249,(187,239));
(24674,(187,214));
(21248,(212,200));
(32433,(201,180));
(25166,(212,250));
(36777,(177,231));
(32819,(182,250));
(24426,(177,235));
(33251,(179,188));
(20159,(210,218));
(29827,(193,167));
(25269,(181,214));
(33033,(194,246));
(31168,(208,227));
(33832,(200,248));
(20420,(182,237));
(32593,(205,248));
(33310,(206,232));
(24215,(181,234));
(21943,(197,231));
(32437,(215,221));
(23544,(180,231));
(27735,(186,185));
(25346,(185,210));
(27946,(186,233));
(36154,(186,216));
(38378,(201,193));
(26604,(188,237));
(29190,(177,172));
(28911,(207,169));
(27941,(189,242));
(31291,(181,190));
(22681,(199,189));
(36719,(200,237));
(21191,(211,194));
(20687,(207,241));
(28378,(185,246));
(21400,(192,229));
(33945,(195,201));
(33459,(183,188));
(32943,(191,207));
(22369,(198,194));
(26609,(214,249));
(33633,(181,180));
(33151,(205,200));
(20202,(210,199));
(26053,(194,195));
(23614,(206,178));
(36711,(212,254));
(20912,(177,249));
(36129,(185,177));
(30331,(181,199));
(40654,(192,232));
(21066,(207,247));
(38075,(215,234));
(21202,(192,213));
(36867,(204,211));
(38556,(213,207));
(27688,(176,177));
(37101,(185,249));
(23792,(183,229));
(24065,(177,210));
(28207,(184,219));
(20239,(183,252));
(36712,(185,236));
(20137,(196,182));
(27605,(177,207));
(25830,(178,193));
(33707,(196,170));
(21050,(180,204));
(28010,(192,203));
(31192,(195,216));
(25588,(212,174));
(26666,(214,234));
(20581,(189,161));
(21806,(202,219));
(32929,(185,201));
(23707,(181,186));
(29976,(184,202));
(27873,(197,221));
(30561,(203,175));
(31461,(205,175));
(38136,(214,253));
(27748,(204,192));
(38400,(183,167));
(20241,(208,221));
(27719,(187,227));
(33293,(201,225));
(29287,(196,193));
(32469,(200,198));
(28856,(213,168));
(21746,(213,220));
(30967,(193,215));
(32489,(188,168));
(26379,(197,243));
(28129,(181,173));
(23574,(188,226));
(21551,(198,244));
(38519,(207,221));
(26612,(178,241));
(21576,(179,202));
(24466,(205,189));
(39068,(209,213));
(27882,(192,225));
(31245,(201,212));
(24536,(205,252));
(27893,(177,195));
(34013,(192,182));
(25302,(205,207));
(27934,(182,180));
(25480,(202,218));
(38236,(190,181));
(36763,(208,193));
(22766,(215,179));
(38155,(183,230));
(36139,(198,182));
(34394,(208,233));
(24367,(205,228));
(25705,(196,166));
(27888,(204,169));
(24188,(211,215));
(24311,(205,162));
(23562,(215,240));
(31383,(180,176));
(32434,(184,217));
(24324,(197,170));
(38582,(193,165));
(30097,(210,201));
(27663,(202,207));
(23467,(185,172));
(22992,(189,227));
(38663,(213,240));
(29790,(200,240));
(24618,(185,214));
(23588,(211,200));
(29748,(199,217));
(24490,(209,173));
(25551,(195,232));
(33180,(196,164));
(36829,(206,165));
(22841,(188,208));
(33136,(209,252));
(32536,(212,181));
(29664,(214,233));
(31351,(199,238));
(26862,(201,173));
(26525,(214,166));
(31481,(214,241));
(27807,(185,181));
(20652,(180,223));
(32499,(201,254));
(24518,(210,228));
(37030,(176,238));
(21097,(202,163));
(24184,(208,210));
(27974,(189,172));
(26639,(192,184));
(25317,(211,181));
(29273,(209,192));
(36142,(214,252));
(31036,(192,241));
(28388,(194,203));
(38048,(196,198));
(32441,(206,198));
(32610,(176,213));
(25293,(197,196));
(21681,(212,219));
(21898,(186,176));
(34966,(208,228));
(22467,(176,163));
(21220,(199,218));
(32602,(183,163));
(28966,(189,185));
(28508,(199,177));
(20237,(206,233));
(22696,(196,171));
(27442,(211,251));
(32541,(183,236));
(22995,(208,213));
(21002,(191,175));
(39281,(177,165));
(20223,(183,194));
(22870,(189,177));
(38109,(194,193));
(39740,(185,237));
(20029,(192,246));
(36328,(191,231));
(40664,(196,172));
(25366,(205,218));
(38142,(193,180));
(25195,(201,168));
(21917,(186,200));
(34955,(180,252));
(28845,(204,191));
(27745,(206,219));
(24149,(196,187));
(35832,(214,238));
(24359,(187,161));
(21169,(192,248));
(26757,(195,183));
(22902,(196,204));
(27905,(189,224));
(28798,(212,214));
(33311,(214,219));
(37492,(188,248));
(33519,(177,189));
(35772,(203,207));
(25265,(177,167));
(27585,(187,217));
(25026,(182,174));
(23506,(186,174));
(26234,(214,199));
(22484,(198,210));
(23492,(188,196));
(23626,(189,236));
(36291,(212,190));
(28193,(182,201));
(25361,(204,244));
(20025,(181,164));
(33392,(188,232));
(36125,(177,180));
(30896,(197,246));
(25300,(176,206));
(29241,(181,249));
(25140,(180,247));
(30721,(194,235));
(26790,(195,206));
(33469,(209,191));
(29076,(200,219));
(36196,(179,224));
(28180,(211,230));
(21741,(191,222));
(25964,(190,180));
(39063,(191,197));
(22868,(177,188));
(38085,(199,166));
(20210,(214,217));
(34382,(187,162));
(31232,(207,161));
(22969,(195,195));
(20047,(183,166));
(29645,(213,228));
(30003,(201,234));
(26700,(215,192));
(36981,(215,241));
(20801,(212,202));
(38534,(194,161));
(34746,(194,221));
(20179,(178,214));
(39759,(206,186));
(38160,(200,241));
(26195,(207,254));
(27694,(181,170));
(20860,(188,230));
(38544,(210,254));
(30861,(176,173));
(36203,(186,213));
(25320,(178,166));
(24544,(214,210));
(32899,(203,224));
(32568,(184,215));
(29301,(199,163));
(25250,(199,192));
(21338,(178,169));
(24039,(199,201));
(22771,(191,199));
(20804,(208,214));
(26460,(182,197));
(35759,(209,182));
(35802,(179,207));
(30887,(177,204));
(31077,(207,233));
(26607,(191,194));
(39029,(210,179));
(24033,(209,178));
(30697,(190,216));
(24754,(177,175));
(28748,(185,224));
(40836,(193,228));
(20262,(194,215));
(31080,(198,177));
(23547,(209,176));
(26690,(185,240));
(38138,(198,204));
(22307,(202,165));
(24656,(191,214));
(24688,(199,161));
(37073,(214,163));
(36259,(200,164));
(25260,(204,167));
(33618,(187,196));
(33150,(204,218));
(36148,(204,249));
(26580,(200,225));
(28404,(181,206));
(29467,(195,205));
(38420,(192,171));
(36742,(193,190));
(22971,(198,222));
(22635,(204,238));
(25764,(179,183));
(20648,(180,162));
(31614,(199,169));
(38393,(196,214));
(25200,(200,197));
(32043,(215,207))].
Definition gb_3 : list (N * (N * N)) := [
(30722,(201,176));
(36882,(181,221));
(25103,(207,183));
(21514,(181,245));
(38518,(204,213));
(20240,(183,165));
(21890,(206,185));
(30103,(193,198));
(29942,(198,191));
(23110,(198,197));
(25242,(184,167));
(33218,(177,219));
(25720,(195,254));
(24525,(200,204));
(34430,(207,186));
(34593,(192,175));
(37051,(193,218));
(33016,(208,216));
(24041,(185,174));
(25380,(188,183));
(20598,(197,188));
(24323,(198,250));
(27133,(178,219));
(21170,(190,162));
(20083,(200,233));
(37011,(181,203));
(21513,(188,170));
(20161,(200,202));
(28866,(192,195));
(30742,(215,169));
(31199,(215,226));
(20044,(206,218));
(33328,(189,162));
(20276,(176,233));
(29916,(185,207));
(27973,(199,179));
(19993,(177,251));
(26242,(212,221));
(29157,(212,239));
(27233,(207,240));
(26611,(193,248));
(36855,(195,212));
(26262,(197,175));
(29260,(197,198));
(31207,(209,237));
(32966,(181,168));
(35814,(207,234));
(31783,(187,201));
(36367,(204,164));
(29943,(180,201));
(35889,(198,215));
(21574,(180,244));
(23486,(177,246));
(31946,(186,253));
(27931,(194,229));
(36745,(187,212));
(24868,(183,223));
(31454,(190,186));
(38553,(207,182));
(24594,(197,173));
(31896,(213,179));
(20035,(196,203));
(32490,(208,247));
(32937,(188,231));
(31821,(188,174));
(25935,(195,244));
(28034,(205,191));
(29081,(206,245));
(30342,(189,212));
(20390,(213,236));
(24748,(208,252));
(25496,(190,242));
(20139,(207,237));
(32416,(190,192));
(37266,(208,209));
(29378,(191,241));
(38145,(203,248));
(28096,(181,237));
(24680,(186,222));
(29298,(201,252));
(38712,(176,212));
(29228,(197,192));
(36175,(201,205));
(36870,(196,230));
(29609,(205,230));
(38517,(193,234));
(31069,(215,163));
(31186,(195,235));
(27993,(213,227));
(35980,(195,178));
(24441,(210,219));
(24444,(177,203));
(24713,(207,164));
(40493,(209,188));
(36235,(199,247));
(20964,(183,239));
(26216,(179,191));
(30044,(208,243));
(36744,(177,178));
(31209,(214,200));
(21365,(194,209));
(32626,(202,240));
(26799,(204,221));
(28814,(209,215));
(28393,(204,178));
(26827,(198,229));
(39537,(199,253));
(31579,(201,184));
(23777,(207,191));
(20882,(195,176));
(21861,(201,182));
(23551,(202,217));
(35793,(210,235));
(28024,(189,254));
(27849,(200,170));
(24125,(195,177));
(36831,(179,217));
(30789,(185,232));
(30086,(189,174));
(36151,(180,251));
(28431,(194,169));
(31295,(184,229));
(20896,(185,218));
(23273,(196,219));
(32961,(208,178));
(33455,(208,190));
(29282,(192,206));
(21467,(197,209));
(34432,(202,180));
(22885,(176,194));
(40483,(195,249));
(23725,(193,235));
(32650,(209,242));
(20973,(198,190));
(20018,(180,174));
(22616,(204,193));
(32472,(187,230));
(37237,(189,205));
(34701,(200,218));
(30406,(197,232));
(38177,(206,253));
(24217,(195,237));
(31609,(179,239));
(20923,(182,179));
(36741,(184,168));
(25668,(201,227));
(34989,(207,174));
(31563,(189,238));
(25298,(190,220));
(20698,(193,197));
(26097,(186,181));
(38078,(188,216));
(40479,(196,241));
(28422,(198,225));
(27784,(201,242));
(30473,(195,188));
(30095,(202,232));
(28155,(204,237));
(26834,(176,244));
(31319,(203,235));
(30813,(207,245));
(38889,(186,171));
(36924,(177,198));
(25197,(197,164));
(20392,(199,200));
(20937,(193,185));
(25402,(205,166));
(30871,(205,235));
(26685,(212,212));
(28818,(179,180));
(26479,(177,173));
(24739,(187,188));
(39311,(193,243));
(21149,(200,176));
(35946,(186,192));
(36797,(193,201));
(21187,(178,170));
(40511,(186,232));
(26086,(181,169));
(21519,(192,244));
(25308,(176,221));
(29399,(185,183));
(22475,(194,241));
(36746,(185,245));
(25513,(209,218));
(39278,(210,251));
(25644,(176,225));
(39554,(194,238));
(36766,(180,199));
(21246,(185,180));
(25187,(191,219));
(20272,(185,192));
(33931,(189,175));
(32466,(200,222));
(38654,(206,237));
(19976,(213,201));
(26421,(182,228));
(22982,(196,183));
(25311,(196,226));
(23431,(211,238));
(36753,(188,173));
(38485,(201,194));
(38613,(181,241));
(20607,(179,165));
(33988,(208,238));
(23815,(179,231));
(21098,(188,244));
(20513,(179,171));
(21381,(204,252));
(21676,(210,167));
(39542,(202,187));
(34223,(202,237));
(21047,(203,162));
(26021,(179,226));
(30058,(183,172));
(36171,(184,179));
(22857,(183,238));
(20315,(183,240));
(27975,(189,189));
(28459,(194,254));
(26364,(194,252));
(25159,(201,200));
(38041,(184,198));
(26691,(204,210));
(25206,(183,246));
(20180,(215,208));
(36820,(183,181));
(20439,(203,215));
(20111,(191,247));
(33108,(199,187));
(38795,(208,172));
(26865,(192,226));
(35206,(184,178));
(26694,(191,242));
(24708,(199,196));
(21460,(202,229));
(25758,(215,178));
(39575,(198,173));
(21208,(191,177));
(26106,(205,250));
(27832,(183,208));
(23396,(185,194));
(21520,(205,194));
(23391,(195,207));
(28192,(199,254));
(23624,(199,252));
(30142,(188,178));
(22937,(195,238));
(24796,(207,167));
(20208,(209,246));
(29408,(186,221));
(32960,(213,205));
(35856,(208,179));
(25243,(197,215));
(38665,(195,185));
(26705,(201,163));
(23703,(184,218));
(22043,(194,239));
(34928,(203,165));
(30423,(181,193));
(28183,(201,248));
(33039,(212,224));
(36182,(192,181));
(28044,(211,191));
(29980,(204,240));
(26361,(178,220));
(38405,(212,196));
(32908,(188,161));
(21737,(193,168));
(21385,(192,247));
(28867,(204,254));
(32428,(206,179));
(27589,(210,227));
(26152,(215,242));
(20266,(206,177));
(30151,(214,162));
(29038,(214,243));
(21497,(204,190));
(38025,(182,164));
(25645,(180,238));
(33550,(190,165));
(31548,(193,253));
(37239,(191,225));
(20599,(205,181));
(24339,(185,173));
(38181,(215,182));
(24658,(186,227));
(26480,(189,220));
(22353,(191,211));
(40763,(177,199));
(32764,(210,237));
(32438,(194,218));
(21465,(208,240));
(29425,(211,252));
(36910,(180,254));
(32592,(185,222));
(32476,(194,231));
(26842,(197,239));
(25233,(210,214));
(33192,(197,242));
(34092,(202,223));
(23546,(203,194));
(39588,(214,232));
(31302,(196,194));
(20918,(210,177));
(26543,(191,221));
(20876,(178,225));
(23608,(202,172));
(20984,(205,185));
(32453,(201,240));
(22383,(197,247));
(29306,(206,254));
(28976,(209,230));
(36720,(186,228));
(27427,(208,192));
(26187,(189,250));
(30246,(202,221));
(24481,(211,249));
(38189,(182,167));
(38182,(189,245));
(20007,(201,165));
(26092,(209,174));
(38203,(182,205));
(22404,(194,162));
(25628,(203,209));
(25169,(198,203));
(36992,(209,251));
(20141,(205,164));
(37231,(245,165));
(36808,(194,245));
(33298,(202,230));
(33030,(180,224));
(37238,(195,184));
(38386,(207,208));
(24551,(211,199));
(37210,(183,211));
(39037,(205,231));
(32701,(211,240));
(28072,(213,199));
(21368,(208,182));
(20183,(213,204));
(38506,(197,227));
(36767,(177,217));
(24809,(179,205));
(26477,(186,188));
(23002,(210,166));
(32922,(182,199));
(25417,(215,189));
(39128,(198,174));
(28418,(198,175));
(26118,(192,165));
(27450,(198,219));
(21566,(206,225));
(37070,(192,201));
(28919,(205,233));
(27713,(214,173));
(21621,(186,199));
(39280,(202,206));
(33831,(207,244));
(38597,(209,197));
(37038,(211,202));
(36801,(199,168));
(29141,(209,224));
(25746,(200,246));
(23035,(210,246));
(36212,(184,176));
(23476,(209,231));
(28902,(183,179));
(20538,(213,174));
(24080,(213,202));
(26001,(176,223));
(38083,(193,229));
(26088,(214,188));
(37255,(180,188));
(33891,(182,173));
(39292,(177,253));
(38607,(179,251));
(23039,(215,203));
(25292,(176,232));
(20613,(184,181));
(33145,(184,185));
(22949,(205,215));
(25545,(200,224));
(36132,(207,205));
(25286,(178,240));
(27498,(205,225));
(33889,(198,207));
(33018,(176,183));
(20002,(182,170));
(28009,(186,198));
(24509,(187,213));
(26114,(176,186));
(22443,(181,230));
(25377,(181,178));
(35272,(192,192));
(36138,(204,176));
(24944,(206,191));
(32564,(189,201));
(27754,(205,244));
(24908,(187,197));
(20911,(183,235));
(35834,(197,181));
(23004,(189,170));
(35850,(210,234));
(20982,(208,215));
(21155,(193,211));
(35820,(206,220));
(32768,(210,171));
(26127,(187,232));
(36538,(204,201));
(30408,(211,175));
(39569,(198,239));
(20052,(199,199));
(28330,(207,170));
(19995,(180,212));
(21346,(194,172));
(25273,(196,168));
(38391,(195,198));
(21672,(215,201));
(21038,(185,206));
(39550,(188,221));
(32518,(192,194));
(24735,(206,242));
(25688,(213,170));
(38098,(238,239));
(25527,(214,192));
(39047,(198,196));
(24187,(187,195));
(26564,(177,250));
(24800,(187,221));
(24808,(178,210));
(20339,(188,209));
(20167,(179,240));
(33098,(192,176));
(31389,(206,209));
(28068,(181,211));
(21073,(189,163));
(30631,(199,198));
(22561,(177,164));
(27900,(198,195));
(33905,(180,208));
(32617,(213,214));
(38669,(187,244));
(25438,(192,204));
(32974,(204,165));
(33485,(178,212));
(28392,(177,245));
(20457,(193,169));
(25413,(205,177));
(28248,(207,230));
(30733,(191,179));
(38686,(207,188));
(37045,(201,219));
(33796,(204,209));
(30127,(183,232));
(28142,(187,180));
(36930,(203,236));
(29066,(208,220));
(31914,(183,224));
(28888,(186,230));
(23487,(203,222));
(26723,(181,181));
(25096,(184,234));
(39539,(178,181));
(23234,(201,169));
(35029,(212,163));
(24473,(225,227));
(31661,(188,253));
(25424,(190,232));
(32928,(179,166));
(25745,(179,197));
(26194,(201,185));
(36776,(177,230));
(27583,(181,238));
(33714,(193,171));
(25674,(204,175));
(25605,(189,193));
(37233,(189,180));
(23631,(198,193));
(30123,(210,223));
(21696,(176,167));
(34081,(178,204));
(22581,(182,194));
(27819,(196,173));
(30385,(214,229));
(30021,(179,169));
(21472,(181,254));
(38401,(184,243));
(33713,(192,179));
(25970,(199,195));
(36758,(207,189));
(38057,(185,179));
(30165,(186,219));
(22365,(176,211));
(24055,(207,239));
(39295,(182,246));
(31096,(187,246));
(19992,(199,240));
(29572,(208,254));
(28316,(193,239));
(26352,(212,187));
(36923,(194,223));
(24429,(197,237));
(23581,(179,162));
(21375,(199,228));
(22952,(183,193));
(33351,(205,167));
(21534,(205,204));
(38886,(206,164));
(24616,(212,185));
(30702,(176,171));
(27463,(208,170))].
Definition gb_table : list (N * (N * N)) := gb_0 ++ gb_1 ++ gb_2 ++ gb_3.
