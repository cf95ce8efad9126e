(** * L_Order: the base points of secp256r1 and secp256k1 have the orders given in the standards.
    The lists are the operations (true: add the base point, false: double) and the slopes,
    checked by L_Chain. *)
From Coq Require Import ZArith Znumtheory Lia Bool List.
From Verif Require Import M_ECCurve L_Field S_EC S_Group L_EC L_Mult L_Chain L_Prime2.
Import ListNotations.
Open Scope Z_scope.
Definition ops_r1 : list (bool * Z) := [
(false, 0xa249bcb3191802d3cb56fc75a8731f848e7b2caf080f3477a4e4d904a671af9d);
(true, 0x28cdb0fe6681d140c59fb73f85f16459ca4cee083742bada762de4ca226a8086);
(false, 0xcffdb37b9cade05fdb719f4ad73b00878ccbbf536584dc9d3ea8a8ba9b0101fa);
(true, 0x263ed41ea861f1ca204b14e1f0d011cd0e8fb627edadcd985f023d4d5778f04b);
(false, 0x4a9ab06359263e9d745cb65a2c51ac731df3819a1bbba20efe18e198a5073626);
(true, 0x128b6f9e4c2d20dd1c835cc7f66be8db8ff9d9219a5ab381e3caba4bcdba1e28);
(false, 0xee94ed8ec4ec9cf7d5783b311431460ded97acc17a52f66463d4c9bb3700a939);
(true, 0xdf4dcdf197a43a2b9c36c78e873977d4b343639b2e433c3bfe90e51f5c9b285a);
(false, 0xa2fcc0c49c6bd1f85e9581ce9fe2cd015b8872623d1fff57033c640251a7cbbe);
(true, 0x139ff3dac1e93d75e011d03298a3ff6029e02d520c8533763d312c080e234711);
(false, 0x6e72a7172a1a03414085f7bceef9d68636f5aaa49f314a816ffc3dff570bd3f8);
(true, 0xf3149c43521ae070ef9f9c7a47dbc3d1d24b9274e372754470e317e216722aec);
(false, 0xd75102e923058adefa0b17ace9f2d4c13fae1708852f13571b5fa3f3ec2d62de);
(true, 0xb2a061b9fdc7e4c09aa7077dc9f0fdf019db0403223604388da73ef5539debd4);
(false, 0x654834a2e2af3b79968f41d26da517933bafd978d26f4115a21f5830d872938);
(true, 0x9dc47b784985700fb7a52cb05ddcd545b94d16ebd094c3fa42f8dbeda0bfe17f);
(false, 0x71085602eb82890f7d3cd811c2963cceb5ca70c582593e28b863722aaa07a1fb);
(true, 0xb09f8cd575407caf3478f977dc6b5f2c6a71b22ff0893477cdee565f2cebcfd5);
(false, 0x67946c57b86ac9a6e80450f2e3597bccf640f6185ee79940f5a625a8e4c879f2);
(true, 0xb566183ea2d5b39bc67423654a35d891063b8b930fbcf483acf4f98cc146c3db);
(false, 0x5d4d2b08ca29d06b1e91d8cb0ffda22776ecdd98f6fec72104f111b2b2119e08);
(true, 0xeadbf028068cb1cfed2ebe58e30a9fac3e0a5a97e14f18d39701cf8ca85ec412);
(false, 0x243086982526beddf165d7c7dd843b0c8310293f9b484595886055124d708d12);
(true, 0xa583e21e3394cf9c4a0abd93b1e31bb7d236cd9b3fdc0e84ad45eb142c8fc38c);
(false, 0xbdc136492813ea8079783f030bd3c3a0d31847e13f7a73f2f0efaed523c44141);
(true, 0x54e743c09616567d3b6689cdbfea23ea00a3bcd83530b235106f501ac0d31fdd);
(false, 0xc66d4e79577249817ba7c57aa94163a6bfc66e835ab0a6526ad43ea8449ac457);
(true, 0x6ad479dbf6efeead3628b03add66c56066104cbeda0104a48293abad736e7a41);
(false, 0x4cc05eb2acc0aad34fb161616e8bfd366bc3d41c23cc8ae1096e30b81801f330);
(true, 0x525a105aab502639ad9f878c575c25b358ee89a6e04c6fbe405aec0b7654addf);
(false, 0x284437f876000545dea5703645ee881b3a8d7b04aab299eb6c09b5054a254e6b);
(true, 0xa5fabd5377693f33a085735ab94bf69952f4529c736ba053ca859dcce3a8fdb7);
(false, 0x2813568f5abff13313c5340457708accec976f62ef393311bd353c2a238284a3);
(true, 0x4b0a463d6165cc6fc04737371afb8eac19cfc9f4751365ad16cea71c8b62d318);
(false, 0x1b52f500994f1dcceb5a870bdcffe30c214e88437a77665dd539562455ddd1e5);
(true, 0xd6a38c0883e753e4516344a374c85aff507ed79c9a8859df0d03349af96e6436);
(false, 0x4377358be4ee9640ad1e7d0cf090992a8fce9d7728a58f67c21981cc59655153);
(true, 0xf3c94434e06496f4b2b2eae3bd8bbde319e6b1fb3695fd0e8a1c42131d18baa9);
(false, 0xefb7da29c3bd82b499aadd4cdc78a1214f6edd630fd9718315e31bc74bbc9056);
(true, 0x4e5208148916e43948da89a50f353bb8eb97fba1132ebee63901a8af7ea1bdb2);
(false, 0x43dadbc0d6f8abe65dd0dcca4402e686d2584f73218e9351d17721dfc893079f);
(true, 0xa3171eec04cc52f999e0a54acd3f9ec496a353be1936f2b06143f845f22cd108);
(false, 0x6c7d74651a3e37bf5016456655c38c27593426f589e8880a7cd3848c0313190c);
(true, 0x31a29b4c16c9a43f18e46e88c83ff6b0705e021672bdb99585b922aed92210f4);
(false, 0x8b74df76665aaffb07df4fbd2b5de2605501659fe298375abf02c40f1b735b);
(true, 0xc075473d8871f96612ef73d217c07749783f442127aa53a98ce3650adfc86ee);
(false, 0xb6ca6062da1151c14a2b116619de885cc425cbe04647ed540a7e31b3f6730f50);
(true, 0x2b7c670959d65987fc33689412f513d2ef968968fd4868d4fa9d2dd2285f75fe);
(false, 0xd8a0ed8b212dab2ebda53bcdef61b3168fff5e154f8c7ab117c8742ce4c2e5c3);
(true, 0xed242ce6ddacb546677dd10b7d9c6c3596aeb134fbcd34245b22f043e35daa2e);
(false, 0x31e29fa3815f4e097d826dbd06183813d18401f39c4da95f8cdda4b6f3d0f463);
(true, 0x8b0a18841ee512265744bc2f6136524092d94d19154c23b252f8968c33791d73);
(false, 0x94240b818cdecfeb1f9cf074d0fbbcbad85867a42f247b6feefb7dd49c2b2d5a);
(true, 0xb63d8c8565a87d9e9ff9c9070647034ffaebf267539fc081779bd268666cce8c);
(false, 0x829c9110290c5ff26c90f3f622c9d949793cbc101de848939aba934c13b01137);
(true, 0xc4385e9974f4969b74fff85bff56e4e1f56eddc111b07dfa7f6f85db8778bdce);
(false, 0x2f87bd70257f23bded3904688f410a3b4e35204b675dd8235c604ed774a7564);
(true, 0x718667184217c02271bea353f8ffb3a4511c8b6a4e226a63e8376a28651a0abc);
(false, 0xd8f4d1b39cf8c94525b7676963406dca4f7e27f76ce5cb840512fe2b0c79d8c6);
(true, 0x388659d985e27ecada5fb911ce8317c492f72af35917ba9393bc7c006d1ea458);
(false, 0x17434fde6217cf23513fcf320c85f0772c06945a80e3eaf49da08e7360dcf7b3);
(true, 0x460cb707eb68da47b8e16eab34d15ea230501076d6d35aa08a5d8e0c2745f5b2);
(false, 0xe7289190fbb5a7d7d62b51d40f3571670d41439c83a980a6ebf0c77129c5ea30);
(false, 0xc0c0f69007425dc498074987e7b1b2cc32e5edf753f84c8d1e31e83a7f4c1fef);
(false, 0xe2266a64fc9e96910bfcc391499f69e6e3862cdee724bf5f53e52619a78d636b);
(false, 0xf7be988964ec4116f418581f98955a9ca415e34883c7a464aefb4b965b9e49f7);
(false, 0x4eb34c79827117c2632524e9f4d02fecf1eede4cdbedd17bc9b364e5ee04dd99);
(false, 0x53b963e0e2a551f86b7527b4da6ce25b70cc5b23592b9b7b4a6768e1eb9eab20);
(false, 0xb8f8d77f98b07b91a739fe888ef94517d1e11ec5ae46114d5d9fcc91b1494e2f);
(false, 0x856480bf6645295b7cc166fcbf9ccb4213ca02b689e6a51515b002a54653b436);
(false, 0xe5bd602b7c75efe5dd4bfee34f6d5f15c12502dc3d6a454e8416bf7262efd14d);
(false, 0x901938d044075d035fec1e3dcc28585a76a2c4f101473d40d33faf2d07a666ef);
(false, 0x225568746c8026c61a929d9ee21cc8b663b8b70852d3eab403172b36db27773a);
(false, 0x730e7f0e730508b34af19c004afc304711f461a3ad85aa214506bbb2d38216bc);
(false, 0x61bcdb4b66643b59a748a3260de0d150ba66d53835998a7618465429d353b8bc);
(false, 0xc9651e62d6774d6d434978a729e20c44dbdf244c051785d459e9d397faf72d77);
(false, 0xd5c0e76343a81b2fccebfe410ee5f059d6813035f76b381d8a4c32004e356535);
(false, 0x33ca08f7f6caf3b2bc2dd0597e53765ce9a3a459a2d6ec8c14fd62b9829c8036);
(false, 0xe3d88474bf049aa8c92e117118d8ae2192be22c3afc88bbb6d45984b246b29a7);
(false, 0x48e767de0f22738d95a0cde900e2811f059cc9b0b4d8f7c6662c971f6dd8540e);
(false, 0x40ce2d624ccbdda2181d7203eceba6f86c74ffecf1099f60709afd4e366ad7fc);
(false, 0x7ca5a95dbd0f238188c92bc10fe3120ca5cdc8c94f5543f619e7b4a285fac63);
(false, 0x1695cb9add979f9b44bba53cddc3af6ec9a9ada1fcecce7cc21c53ebfe9bf13f);
(false, 0xb52ef301be713cd3721fb2eb26e9651c62dbd5611dbf05a2a082290ba0205c5b);
(false, 0x477a8d7b28feffaee439432c1cb34e620d2b28f77d7a02dd8f8b7b25da055f0a);
(false, 0x3df23d02be64203da86b3586f55929b44d3b721a7d42d1f74c2790f568dedb19);
(false, 0xc4edab784cc66e9dc3ddc0a1bb35098abbebb6da1bd0379f4f35495b1810da1b);
(false, 0x88fd5e6ed410c082c3ce11a91fb70b3f67e4a7765d05e18d7f947b38ca97f419);
(false, 0xf20a57ee70df07d6ce91f0bd0a46160e3a6c07e71c958c66141e21069158d350);
(false, 0xf1fbc80729ab01a5ccb119d4f3c345cb8f969116d59a28f5bc535098ecc8e08c);
(false, 0xb6f56f88616f73e59cd055fedf26a4e7e9b7d3805a7210f8280ce5f968813bdb);
(false, 0x95293b8c9d1b7cbee1c6a40dddbfa08124cd4c445226188841a5ce723091ed70);
(false, 0x5fc30199770d63f9306b8eb5b70c590e7a78844d7f32b7599bffe25242913afc);
(false, 0xe6f5915845524817c9b060c18d8b717cac8fca080e26cbcd288bf75a7faab605);
(false, 0x5964c5233f7fd444ac5e95e0039f0cab6fa80871add7e1b32f0a722a6608889c);
(true, 0x61c1c5729551026465e86872817fa89004a45e0813e30fc1237459192e8e8453);
(false, 0x8460b25d97666448b4ee773e3ce03da44167ca15403443c4d7e670a9a4b315ba);
(true, 0x478a8ff8452f55219fd84afc9dba9fac16e3398758d27227159931dc490e1442);
(false, 0x7c42153ee71a4514f3f19f3fa1cad7a32365dea4ba9f93aabd93f08ab8a84786);
(true, 0x639d7d5deda2352a0b7c2599f12f386ffdd28b6e7dd40da1362defb479d8e4f7);
(false, 0x51a714c9715fc3a540606c432dbb85c5a5dec10da8af3080ed323d44e0b53803);
(true, 0x5da15f62ff4d7f2a8924a8c455049df63f9560cad7b50667a651e3b2a901d856);
(false, 0x5f44fa9e56759b25e964f702cb194f3ebe9ea41bea10a3b7fea63fb8ff411f7);
(true, 0xf12561045e09f40b3809a0ef2d8188c5e49b758041f336acdbdb5278c5c392c6);
(false, 0x37eb0347dbf7edb778e2a3b5a46ddd1c91217ddfefbed72597fd6bfc3ca1869);
(true, 0xdb3fca3894da5e578b3ad138f65339198c4d381b1a80c381e7fcab38dd7eab0f);
(false, 0x773de71b6121815759112d10accaa17f10a18d46fe1a330108cc5925d8f3ae2e);
(true, 0xe4b5906eaa901a1d95ae0f1ab598afaf50a29a8d8fbb666d391ae676d8262bec);
(false, 0x9d8f6122b4fd1e4eb628f3bb15c795fedd109336ad3106f0812fbd8051767234);
(true, 0x5459395436aa40d27e387fab3cd70a9cb0bce690a9a48b32f26766bf92566839);
(false, 0x63202e522ddf7de3dd735dcdd91ca51854212e2ae81f582fd2ead066ae75f9bb);
(true, 0xee71b88e219f44dca3f678809ab2d97a322e5fdafd9435140294e9e8447b56f3);
(false, 0x3e417d778cd322d6f978a0db5d4f2c18ad0902cc627cfa4c2d8b52046c0544b);
(true, 0x809b1c2f13cfd8dba8e804bababc0e1043ce348d46d2176ed04d6911d42e8721);
(false, 0x4ec5bc0c0e0f3139f8c8f3d6583bd0764824d993206fc155b8e5ebe00b29fe4);
(true, 0x9815c79a7f234c32deb92fba0aed60f779be3b6bd49b28f493e6ecfd8bdf4c24);
(false, 0x1f3ebc201cd768dc2bc133aa802452a89eb99e5041fc7a14f07001e4b8cea7c7);
(true, 0xfcca2c6bdad1679d9dbe37c4d31cbd7f396c38092d0800fa0208f087dad176e5);
(false, 0x5e49ce521dde3639276fc58c8748a9fb9ee3cdd8c3b0abbce67f53dd15a1578b);
(true, 0x3a40efa7ec56fc2dfe613300c5d4ee4991c5dadfe7bc47bdfed7764a304fe1d6);
(false, 0x653fdff321429d38326f2335659c66d972471a8e8fdb3dc77085843633fd0753);
(true, 0xdbad9d15f0a229d3058c5e2e98ba0bf86105c77b8a9812e44a1b26039c889a8e);
(false, 0x854b6e8959a21a0edbfb3850a3d4896a01c9e6ea251bf86c3bf9241a72d455a4);
(true, 0x44f463287a3eec0e0484928cd78afdf2de081344b5416b8c156104be785a3758);
(false, 0xa6a59f0292e60295ee590171982f2037efe67568e5706587dcd8a66584dac1a5);
(true, 0xaec1439d29c41c38cdc0ce57edecbaa368147691af306084f8ba62a7c4915864);
(false, 0xbc8b0845cfe9aed26c9f60a85e019fe3f7e48db3549398b43df5ae0951c1355b);
(true, 0xc7279534f7cf0f95a613af86e92cb67659957853b00cdae5883ae4f1c075a1be);
(false, 0x5d61a9453ce7135dffafd041adc1b59008d67875795065c3172eea89929eaa54);
(true, 0xf6055fb25521afee85642a9f773bb086f0c1941e70565e129cb05c977ff0e37d);
(false, 0x2d128447b5631939a736a8bb8134d8863692f8a0e79c620f553c17fec17e9d96);
(true, 0xabd6f315532af98ccc28b5ae43dec19c5cfcf0a7fa6c89790223c74ec941e626);
(false, 0x40fdd352bc4e5ce83fdf7337568a36a3df13fe90f4a5d975c4afd0989bc8519c);
(true, 0x7d20ecfa7d042ef0a592b1e07356346319a753353d45485e8033c242f7e9dc9e);
(false, 0x4189983cc2a433e32e4c0ca067d18c8944722d6ff6e38f3c56c4aa36b977294d);
(true, 0x29ff66ec7b6e5a74ca03fec0af64f196367c6774775cfc6faf0ed7c046d132a9);
(false, 0x46629eb3fa845294ea5d0fa1a880efeb13785ba7987da34cb335911711e137aa);
(true, 0x3067c9164c9b7aa37d5e7ed783e9037887217cbe065d17921982b51dc5330ee);
(false, 0xc7e12ee3f202c1de5ea8a9d7c3b05092f5e5c4a547f4e08921515248658133a6);
(true, 0xd709ec48d575919de6d0171befa8b7028c2f4ca4e887f34d51d33e48dbd75ad5);
(false, 0x64b18e8a4a0c7556ab21b3d79dfc563b23d21c9601d35fee21c74f651bad467e);
(true, 0x484566a0c3fb005cedc6a41ed31fc0badbdfc75f1911c2223dec54b831ba6454);
(false, 0x5245eadac0e0afb5c3228f70e522c85905b158633c182336c1ad3c398752d2e8);
(true, 0x2ad2d961786f3a17b70d8a977c0602a72cfaa3c4b90193f6cd821ab75a14836b);
(false, 0x50889070d4b8be7ead191bd948652723472319dd8fcc42db026e2b2985eb79df);
(true, 0xb564dd2cb5ff61058812a2409c78aae02758a1ee436c866ff58fb2e0c38942a1);
(false, 0x3b217b5656dafb012ad0c023c94bf3306ab216b14acadad420b2211391ec095a);
(true, 0xdad3f98fa86c4e19da03349606326dcfdd57492114a8525cea3c37324380d453);
(false, 0x217dc061ba548d72e877e8cb2df643945fd7dd2d4cb7d7ae9dbeab9a2d5169e9);
(true, 0x6f0a221a784ebfef4b32b8ee0109b7e502f5bf7b2bbb8631ab6bba6d8604b9aa);
(false, 0x62d81b3c0de39523156d1ad19620579d66cf4d7f0f07ec6deab93744c2944a05);
(true, 0x830b523e84f9babeb980ee0b74403d685323cb340050fed6bfda26fcdb01dda0);
(false, 0xd31ba3db40bc0c8b2c28e55ad18cbf17a49feeecb9ef04d1905ccbd45a40d462);
(true, 0x37d9292a32242d74cc4f9fdfc310b24c9e8ab0f33bb38c947d82b1292cb00759);
(false, 0x1d84b9edb57b729ab2472b66c23924430e9d65d34a3c606aa4ad37eed84bf2b9);
(true, 0xb48bf2421082f4f3591c1c86f551efbfc350bd3a18992efac88143a10bea9728);
(false, 0xa088d1b1fb4a7f3b03ef3a9b1e64cb0dda4d656ff5f6578c8b1fb5a51ad5cd94);
(true, 0x6ab30d979c2464f41b9fbcf7e91eee34c420f538e9037918c84a61dd61f0d7a3);
(false, 0x2b533d0d75373494ab6e521e47c78b73ec0da04ed717f1dd6289e1ccfb6547e7);
(true, 0x3e297acecdac79e931bda33b557c9123e52e67c25eb649f729aa499b32c3fb76);
(false, 0xc2c2b29302de61f333b9071e80019135337978c83e5c47c690473b389bb766bf);
(true, 0x7246f7622df4d58826e42e3ade176078027b5bfa2eef8aba2acebe90d4e136e2);
(false, 0x1a352744c2fb61ea03ee26821ef3875a1acde0022e6424b556e7a836721147b2);
(true, 0xa458cae360085939b66d142d452c78ac7b23e303947f09a53eb7c7ef5439029f);
(false, 0x713b180aac5482ab29c14d427cb4dde223507b83d32d837f7c193abb1d723e00);
(true, 0x9ce4f6ff4d307c896bd381d90ac8f9dc97c371a1d3b97b9c5f0fb4a2327d7463);
(false, 0xad97f5406c3006d84eee52776ffe7ff9d70f633d97e7cc97df6f722dad3e2adf);
(true, 0xe281045fc4d097401efb73faeec5f0af95960ab95087f8e7c3c58d3104ab674);
(false, 0xf0157ff7fbd17aa9fddc052925780b70883b18f724b26d2a12e9f8240ea4aebe);
(true, 0x704fb443db452ee548ea0fa17e3d4c019f9a481c7e22f9d053c74b26351c5ea3);
(false, 0xfc4ceb3ab4b6dad9ab874d06bd698ab4788626cd148a3ed0a7dd1000f05d3390);
(true, 0x1ec1474356b2c209d207f2b9e92b664ba0a18d9fa2ebd81be92ec9c4e96cfee6);
(false, 0xc7b5f67bd272579f252611c06095ac4333816f15cab71e15e9eaa57a05b5d567);
(true, 0xef312f78d5d355ef6abd2644b85c40eb3838d876a652bd57fc1df6fb5dccec63);
(false, 0xa6c85074d081ebd26cad9a9be42b93b4873a2f39c80159778e7e7a509f501584);
(true, 0x12fa762bd6fc32a80195703ad8441d84a93d1bd3df352f9d3811420344ed83c6);
(false, 0xdd9fad331f4688e61780363968dec51d7959e732bee35ff488982a38cad65450);
(true, 0x759bcd4ff622d64155894e13dc271f8674d786e909b871aaf4792ec0b1e80530);
(false, 0xcbb01a264f61795ccb644cfba7b53cda27f0d7b5e873c9c66205689584db505f);
(true, 0xe7d43c915c1b508541cc6bd2fc3b89172338f15760edbf2cfce2f3f9f697b893);
(false, 0x96bbae020ab6bf67f718f55930b52dc52531edb3206fab791aab5ddbf26dda45);
(true, 0x6179d623ddf9d9543492ca84b223ea3dc6d08c8447369007055acd8f958d7524);
(false, 0x26953612f33eafded68613cf9787e67ca15ab0dab5469ce653a87cbf9056434e);
(true, 0xd63f1663f4dee99ad58e6838d1f03fd82a9edaf6bef7f178fec8ea8f133f248d);
(false, 0xc5f4f06025a5a1a928e3b5fe2b3299987396b2e47823534fca1880f7f49a2eb4);
(true, 0xe2e13b006db28064155463f545792b1533776183de7d6df2771b48f6ca8071ae);
(false, 0x36547bca0d7b07ca5e94df1e63bada960b17adeb0c4524923fb2a75000f4a6c0);
(true, 0x8c0699a09e743a480ec474322c34371c4582b089e6b08c1e6b4269928126daff);
(false, 0x89416f8257097c6711519aaa2efc5423d887b0872e069b42b7d1ad504f4c5749);
(true, 0x9ae45879eb8bb8dfe1bb90a38b457828d0674e16cb989ede2c97cb54e965abde);
(false, 0xac1bae86dcfdca39f4900764740e00ead746c482d89449840a0a2a3fb9f9e52e);
(true, 0xb084270cf3fbf2b1a8eee49509e96351199fb079b4c26e3a353638ae6d5bd967);
(false, 0x37e805f5570746ebac3518187a955eabd9c2075e9fa00c42da50f9a3dd03c452);
(true, 0x4be2d84b6688417fd23d48e4469ecf8cd1c19a4eaabddf08cbb0773d3621b37b);
(false, 0x9a50d4adec52fe7a80a0e78a3a0c66ada45c26178a6f0f31718a179db67663cc);
(true, 0x30a03bdebb180a74080c63de9ee8a25f3f02fd9c06f8fc519895f1431dc349b8);
(false, 0x63bc1f5aeabe44e3ffb8802ebdcb5c9025f920bb683a783b6bbdd351b6e866d3);
(true, 0x63ad11c27632cc56103390840a7f5b185c854a5414762c01c9c7f26d4cebfe48);
(false, 0xd06f3fc4f9acce6d10868ff1419258fa83a2c1c01af09415473f6260d4884df3);
(true, 0x4615eee0b7bf836e6cf1f766269f4bcbb8bf20edd37392fb8f4dc4f5eb370ab9);
(false, 0x33eb60219e4a075a652a37d74c8310564b9934640ce7c31337908bd23a23f450);
(true, 0x4da6208af3ef851ae22f71ffc9ae90aa5b4f1cddee9a551f8c343fabb66d8cdd);
(false, 0x51427113c9caee70f83cbc4ab26384f91359fd9e731b734fefdfeec44c857450);
(true, 0xb2bde25d032458f73f1812c24480763833712829f0613b18c2b7a509e4bbfc03);
(false, 0x8422412a60d5268f30e0c119e1b3d9551abd8b36fc943bf320de5a178ecb34f5);
(true, 0xdf0a9f9fd331ce48f0a4d19efada5a41470dd7d04e335eb0834741226d416abd);
(false, 0xe899dea1c6672ea3d24f9715437027b61e62204a5225d3a45d0e2152b5d6502e);
(true, 0x2d4697e999699090805abea55f57d1857e0b682b6003409797c1cf90e4ea0655);
(false, 0x27cf1299aff30f21fcf88080f235a8314b29b990e031064ab77d641e4615f130);
(true, 0x5530c0778bb35a2a29ccf1dc04a750e19f0762ff238c6b208bf24510faa26933);
(false, 0xc4ec4e0f48f90f1f83bfca7fb5637a4d633093a4ae38e9fbb4b9a71af1ff93c8);
(true, 0xaa901b5d5c6e84637cd6e9572b01a784c417d839fca51ec2d0095378e3b7fd4d);
(false, 0xb3d30142946b235b156037a70d4b12d6b7c7c1141a05b65726bec907a4ea4c8e);
(true, 0x5b1836539da60734aef7cf9426221f2b92f2f89527c11e3ed787d2499b2ccad7);
(false, 0xcd5722b4f57a0a76a3e480571340c8491342f649808af45fe6fc79de2c63f3a2);
(true, 0xe677c4797eeb7dcdb2efdb896e958e830bfb8bf11a8528773f11ae820d8616c4);
(false, 0xe8adb13602b551162b664443befb21d192efa2d231a14819f78a74a33ce3dfb9);
(true, 0x44237d48e70f402f7bd392da6f762126b06ed09085746babbfc66fbe8b1c9558);
(false, 0x643509a85f6154b200c1fac7df310f9238debbf7803cdad43b1995efe25ad36d);
(true, 0x89e1033b12996b7538dd0621e681e649a653e6766f3f84ced6de083adaf8abc4);
(false, 0x8f6e8751eca903eb3c43a592523da2fe1eff63fc7dec2f429e8691e16a853ab7);
(true, 0x9b06d815524722be5a2b073edf1998085767a4172caa88f1acb525aef593b31);
(false, 0x7bbd682ca56c620e51834596d63c8a983bd853d89d0ae8eeb7a9f016e8db674e);
(true, 0xee573a463fe1860abc24a110f9b2e08a16078b37421dba5742987bf411fe6227);
(false, 0xf20d44963937da1dfdf6dbf36a5adcfb3b8fab44d9efd9b04e8afa0421a9649);
(false, 0xc544b2a309280f5ae580d5d923981c523b647cf5dd806567d431ad7de0125b0b);
(true, 0x5742068b3c41c8060e2c2aa80dfc36e78858b543d45d2b4d7499c2e167a70718);
(false, 0xa214807ea4d5268c185ac41a9c76218a7f21848dd6b0b1697b02b53632550768);
(true, 0x31bb825022cffb086f0068bd8c7e3717f1b45db18de2fd32fe6f58c86f526ce4);
(false, 0xc5b005dc9624a5e46ffdbd3d9759ec611fb2fe356615359d8356d5fff090beaa);
(true, 0x853390d015eea820168779050539d42f7359dbb417d14f244ccac48b81c2fd5);
(false, 0xaab65e6fe897ea1ad3dfcbddb8b7a367594e5e7e30c97b36793c1a6c82a1b835);
(true, 0xdb2a7f562289009c9e02b5aa11eb2f760db14a82321e27b205c65c1439477462);
(false, 0x674be996a79b1ffa91230f8457289247595753941f964900da839dfeaa64d097);
(false, 0xee5e7e6600de627f082365e48c6f6688ca2c9ead6d077753c293089bd937b41e);
(false, 0xcd91cc334db87c39c7ce70cfb2f30b7c6860531fb6369667b92df117f1189eff);
(true, 0xcff456b304ea94702d684d39ced34049bd9d5357dda0c185d41fdcfbd0988ed);
(false, 0x565eedf299d52cc550a5624317569fca97463e2b7d767ad9747a2a47e7ff5801);
(true, 0xf87546dab0a4b858e0eb4463786516d2f39b2118586cd3dcec09521d88d735e);
(false, 0x59ce58d6df6bdcbfed6259ad846ef25274c80a9e0967cdaadc98ef3d8d088256);
(true, 0xbfa25b7e28cb1befb3c193f4736e4b565f3e413b9f0663425216d92eb3b50b26);
(false, 0xaf4aebf985cfa16ba0a6d619d9a6e023514f5bb08c62d76b0420577c88407f52);
(false, 0xad5555a05bce9b2281eabcab4e0aaaf83beca658b0c6b730bf3e204f948e8da0);
(false, 0x483de7956274d82c64f1a4dc18fccd7e45b35343f872e56a8a8bee2d07c8d126);
(true, 0xe778ddf181d23733afadf1f9c113e2a0b243a16b64fb43e8bf25d3898b5567e7);
(false, 0xc916486aa2bf7c53b29a7b4d115b7b6bc3c450596c7239266c5ed08687ca85e3);
(true, 0xf1227496848bdbb46a38e581db05111cb4cccc61670d57f86054f51bdacfbf7d);
(false, 0xfdf19e286091fbfd0f8b35590a1ac9b2610956f2bb6ac4d2283fde34415298b7);
(false, 0x9d7977fc6eec61798c767a937ae06f3f5657bbdfdd64a90b7cd5a3bc48b583c);
(true, 0xe8ee1f16da0e43155e9a5d5c495695b4b837ad1084f3c8d2c12a93c882fc4af0);
(false, 0x63d5a27d4896b73103d1f9742ee5aa39c4da5924885965e0b8ec8f06163c238a);
(true, 0xd5e751898735c1123f6b2f43d906a46b0882f0e02aab74158cdb5f9893e31fdb);
(false, 0xae8c00106c46b6185f2774b74448888bdd241ff44e897e6d216cab541aa90ddd);
(true, 0x1bb2d91629a2a20a1ec44ce2f9a8a12278c44a17f5040324eb56e6949c8a70ca);
(false, 0x26f074ea27551377045b90e26a9e4233ebf5108089d2c3cc297c877cab949662);
(true, 0x2e414097da6cee079e57f140a706f365f5351def5c73c3402058a8bd7f0ceabc);
(false, 0x87724892c3bfdae63a7fec2b38a58cbb4bc309528a2ffae7083db48e8abfebb2);
(true, 0xe0602209efadbd6cd456a2c0de310e56e7909a665222431ab28719eb42336556);
(false, 0xf2e52cb7a0dbf5b7ef55f9954fdc0b324a0f39211cd3744d0693b7cb2962402a);
(false, 0x913748f5f4ebd40ee833087d5f049a3160d91a7e477ef3d255ff1d5003941e44);
(true, 0xd869a5a8c422b38a22406440fe94b20df7c47a43022621f65b97edd467d66133);
(false, 0x7c8c145d701e464083f094c760cb94ce22e5c4c127ef0034d1950df32fb79c33);
(false, 0x35c60f1a836092c74a628eccca0bd064ab49bf4039b700d3e48b339249b78f83);
(true, 0xfac57d66161c5a265e954584676cf009af396b7628e79f6a7b7f06d5dea19871);
(false, 0x64d0d38d31f6655d7305cdaa081f8b3588f2ee7037fa56584ed2c138efa37b6e);
(false, 0x34c0b6e689e3ebaa4a2cece3b57c7a923ef24ecb819a1795b6aa6193fa78ebcf);
(true, 0x5bdfc3e016bd14064129e7dafb01e78823999963ff47331b8a4f7cbab25aaa56);
(false, 0x50530b13c19734d2d6ad228cf66c39c9677d257ecc18618bf6a5558276f01e9e);
(false, 0x2d7a7768d68344da1688ae6dbff88c6780cc1f46f6cfeebe6948d084a1fe433f);
(true, 0xf5173752f41f755ddd667d0b71e575d364541f8d737ddb3dc589b59a6005c4b);
(false, 0xc816e595a34f787c9029049e3fa6f83055c0e2a6ac9a34a0bfd611cf94593802);
(true, 0x2f8b62ed76f589fbc3533e687452a34510594fe624725f54fba2af927445d1d9);
(false, 0xe49459c373c5dba80edde36f7347197dd8ca4cb493790182f5e3d808c610246a);
(false, 0xedcb40b3507486f3f28953bfccc450a88bd60d32f3732f1f0ce7246d95bf2b27);
(true, 0x1e7db4945ceff091770564084b5133a757d118c5101c1afb7599a7c039e2ad71);
(false, 0xfd8f2d77d352a10feb4af848bcf7cdb517b5dd5fa59377ef98cfd3aa76801669);
(true, 0xccf22954bc142e0ac8217aede886a51813ec27c584eed803c8aec458c3ff8e2c);
(false, 0x4a370ec9fecf54b22643110841d65d9b9a30cfe56c3ab2a83ebd00265554fcda);
(false, 0x26021cd70550e8cdba42f3e607e8d47fc17e9f01548cf8991eb7ea0920d2a1e2);
(true, 0x2def9b7a035fca5c5ca4d2629525aa72cd247734826468a96100c57d13b620f3);
(false, 0x1687868d0c3c942a86f6a2f6bc2b0b0014da5b25d28de6968dd58ec932777ea8);
(false, 0x2e1d6d99905ca613107ae06ad50b69ee23145b1a91e4afb8a2ca74b9207129a5);
(false, 0x4cc2cb0832313f941fe6fa205e66482b5c95e94b784f8cad768d71554e8dd58c);
(true, 0x953eb80710490a90c4e9015ccc7780ddcef83b0e528d98b2147d8cee36c7f650);
(false, 0xe77a43f2a2db426a4734fedd298ff83781fcc9a38db40f997784a88426213f9b);
(true, 0x883154e5f6c853f82b843514a92c45ff38ef34beaaa4c7daa8dc8eae6f30eb88);
(false, 0x603ce71d2f4875d6123745af68f305da3eac9f117aecb657b2452e1194fd1c8b);
(true, 0x3dfb0b8a175ddcf55618fdee537b8a67e3d57ce34b8e94e373fe7c714da7bb04);
(false, 0x328311006166da0e2d955527c15989dcadf4e3fd67e2fa1041c595d4d5bb5318);
(false, 0x7e087002e55cae077c9697c99e58a03e348c2cf038320cdadba6fdbdc2abda18);
(false, 0x874749fef062abebe4fcd8d6de89523c51b44716b020f206d464b45cebd0227d);
(false, 0x54f55f77ccd03ea178b1a9b03bc1897cea9b8351be047214c7608b24e0da4759);
(true, 0xf5941c1eb12654a007fb675db05b67aa690e9385ab4ea936ce0d8d9d07282f09);
(false, 0x5acfb45bd60bc0684156370c695bdfa3cab57c65f4c38a6a53081170e235536e);
(false, 0x947b6dd1a288447c982122974b7d9a8332d3e6c66bd628de21b21bf1e207b274);
(true, 0x83175995fb4db2bde9505510b2d6087e98574d82ecd74dd2c38e20eaaa4aebee);
(false, 0xca6be48477e056606160f68ebe6af2618203bd96699dfac805feb6fa3b2875f1);
(true, 0x9451d9c9c74c355b0c775b914fb857ad85fe732cda0baebf7528245a026485e9);
(false, 0xe02cf3e22f37777a9f0a291795186edf86f76a830e192ee15156aab6c19d43f6);
(true, 0xa8f01cacbd47a9fef58f723c262de87890f85d1ad84d95bf26bf0ae783d7681b);
(false, 0x8b8b8a063728619146fe97651e7e937006dd59bb5b71738f57902a022abcdf90);
(true, 0xb4aff3b7eea3d1f46cfb383fc5441831bee8c24ff486ef5658e1879d6eaa67b2);
(false, 0x3050f99b1337c62004e120e368b9c0f76b837cba50537ff5e210843b7f72c84);
(false, 0x359cb63dd575fe116d4334b14409ac9b98abc4fbae71c5208e980e73c5464763);
(false, 0x741d59dd266cf529f4c4d32cb6c774d98385e15d27764acc6c6e572e4e80178c);
(true, 0xc707bb40a046b6b80ad2370021bd7c1e4798b937a4fe3f46ba3b92352fcc5c80);
(false, 0x6d9b738fcf928b6507ab382568d26fe8fb1a5cd2267ad3c7cd8b35f7bdda1564);
(true, 0x9a23f7a3e0df8e90377b8ec3d19a9aff6a18510c305d31a42895851fcd7a8f79);
(false, 0x57144b4feb9401f989142e6227165ba7092e76c6efdc9427d946dc3ec193eb2c);
(true, 0x3564f27cda557f419e3751b19a06994d4820fe4f5c0b125641d601ff3c519f37);
(false, 0x5a30e7df1b086b43be6dc3ed231fc325d82608e31ca367029c00c348cbb10234);
(true, 0xeb26fafbc6f12849241b40374ee7edb8e72f1546f6aadfa139ed14ec2c68687d);
(false, 0xa062b7b604d46e0eec641b05bea0471db15e82688f5826c1c34637bbd3edec1a);
(false, 0x9fabde1ceaeb992e80017b12d617ae37f2035299330091887021ceb827ccbb36);
(true, 0x230d7a4a3dcda864775eb4ffe8f319d14834441848fc304ad231797811c1302b);
(false, 0x5470a5c84b32e321637d2e208201a340a01ffeca339bd0aa80979c4f1170ec87);
(false, 0x7e0a3376d947900a7a41aa6d2f81b1952d4c5c95a3d6fbf1603466442e7f0620);
(false, 0xe05d1f4553924fe6c8c2d7e3065b67bde5d0c944415fef1de4ee9e5bb461835);
(false, 0xd6be9e6daef03da7f6225309237433fd6749d3ba48e55744d1086a32681a48b5);
(false, 0x232359521f0e0a6d5ebdb8edfec99aa6083f85ee92d280a53cf82f10076328a7);
(true, 0x5a5329acaed2ae0b821c3ff92a8374a4f3815e42d8d135e1aa12f39b7c454904);
(false, 0x38ddab01e96df9b5601daeee9c80b49ed240c47e2ecc960852018922aba272f1);
(false, 0x95b7fab8a622fff06ad5e5702363a19dae3220b75d3ae3ba3a0b13ee14053131);
(false, 0xfe55999c46aa7703a1458f52588d6a83284348451bc4249b2c800fe6f32c0163);
(true, 0x73f0586710391df475564ffc3712d6a06aff5021e1db8cc1d728b08441cb8582);
(false, 0xaa3974036dfdaaf916da0c1878bdbaf4f0c5d807fdef7cbb0941a7906a25ae06);
(true, 0xdc4aca2ff9ba9a9dcf44510fc7383937e55bd24a043cf7781a2577cd646fda7d);
(false, 0x1ab42b29bc622068b7cbc863c4ce66b417666ef3b1d9e655c61875341cf429d2);
(true, 0x92345d7044ad0d848e1bccf5eff8fa9ea1d2094cce29b2b464be0835355259cc);
(false, 0x1ee92dd3bd4acd40e84faadc778c19de7411b80ab00611d2fdd6d370e9e5dc0a);
(true, 0x1d8260b9284c55883180ecda117d24d39deaa7b40009d882392954f6293147a7);
(false, 0xd8833940fe6bd86636ea00d04162f80381a184a21c5014203d4cf7987edfe17b);
(false, 0x34e0318ef4cceb053031caf723efabaa1bc24c69e63a9d8f8719e91cde261341);
(false, 0x3a2cd2afbd4549342122c9254195397712e1af3e5627b560e348ddaa5e7d72fc);
(true, 0xb1272f6929356887be06790304fa3b2c50392403a47d95d10d8dcaaa94afdbdf);
(false, 0x47a696954b4e9132c951338cc9a61bd3e9b4bc2e9b3bf2f53bf47df42cbbdef9);
(true, 0x2365657d0ecfba1cd9890d7c154e672ede0be9a894259fe354f79a7eb402e254);
(false, 0x6d50873f95866b8df06fdea9f82edca96c81e5b72d078eda81495bc687354c70);
(true, 0xcd3b264cf0eda2a96ddfb1565f695665d2ccd5f3f20eaeb19d924c9d34765683);
(false, 0x6ad3ef0cc2adb4848acee7f765112db3320d3015d9fdd461d525103004f36882);
(false, 0xb8117ba4cabcbf56c5077417a86c3c354d303a799c2df5fbf25209e098c918e0);
(true, 0x9799eebf6910f389f179c097b9caaa7e38e3783b16f050360872be57202ffae9);
(false, 0x272833c940196608342b4352e118a500103c7950ef5c1304fc78ceede9288265);
(true, 0x58923aa006dd6b85d52240048faa72c1ae6a17d68c1fc1ef4ae027e9df559653);
(false, 0x8fbeff7fe11ee2c66414064d23a0f74544e896ff2b0fbe02682a5b0fc230802b);
(true, 0xb248193a2c9da2e5391bee1e16ecabfea8857d2fe4bce2217a4cb27ccf157ac8);
(false, 0x1e24e23be43ebbe98edbe61394c3a6ed01a7f4444ac3d5e4cce9f95f1f1b30db);
(false, 0xaf7b1bedf0c2915b1da8d0b4b2c1a7744f9b9aea67bf3dcd991f35c737a3050b);
(false, 0xead75cf07542905a364f01948be976aef4a71f8ffd4aea0c6334a6b6a53b30de);
(true, 0x5ff1e7271371070120bbedc03ef024d151b8361bd1ed5baa895c0aadc0f14da8);
(false, 0x9d925913cfa37ffce734f79dbef8fd054ee65f7ebd4a81ada48ec7aa3b3a3d3c);
(true, 0xdcb744afc0229d962da3d0519f94f764d653aae85868d6753d47ed1f3016a368);
(false, 0x57e62cadf09a652b3996d26bf7e6bf4fd20ed169403615faef394d02d32cda5b);
(true, 0x74b070d234240a63bb8c84795e95174bee5f3d900ea9748c174fe75286fd9424);
(false, 0xf99a98c677df5fa909f310e9c1e4d2e4d7661c86650dd382f74d78255dbb4d17);
(false, 0x1f7bfca8004798e8724c6e51d327af0c8b9dcfced075624ea910059c69819217);
(false, 0xfbe3f876cad27ea18b7ed7d9a18e7277f5ece4c2b3a80b2926ec17398dbd740);
(true, 0x9d5851443baa883af29ab3bc9db02fb7160641ab858712546e09bf4df5f17191);
(false, 0x1744a80c7c558f443cbaeab6a1598aa5cf536f8e359d8d65e6a33e32950b33f4);
(false, 0xcb26e5491d724794d4428479d1e1ef5b43aac2ee8abf8bba5d91c748141b2caf);
(true, 0x74ccf97cdb9cabf0d5790efcd315a8dd5f7acc4a142c89ea83402f7f2cac8485);
(false, 0x97a3ec5a23b71974a2f8008a754e8ad427b671bcafeb52e4ae600b263a1ee532);
(false, 0xb069de89a4981947b55927be9b4aecceec0662f6fb4fe3ed1955d75938caf41e);
(true, 0xb77b0bfb4fec49493dce1cea2c41b2cd16dab25004498ccd8c855b6dd3621b43);
(false, 0xeec21863927dff14bd8494de14db27aa9d6807deec4a05b27be99b9897831f59);
(true, 0xd15e9a68e1f9967a12a2b03bda1090ba253719e8d418fe9516ea86624c53c473);
(false, 0xd179f413ae3bfd5ab16b4fa72c59c7cff3de907e09f0fe2e6784aa84fdd8df5b);
(false, 0xf3651f1948b6da881c2419f75d7cf4b68afc8df485801ac4b19c7755233c6f0c);
(false, 0xbe23251d063af957b0c233d8caaad3245a71d35cee8041a4da77eb003fc49840);
(false, 0xd6773521eb6e218ad74d5d85cc0a9a6f3f123dbe6a34ec9433b8a7639848538d);
(false, 0xc226bfbf1244da56d3dea59525961a1c5d7418bd2bf0657a343a360c1befd5f);
(true, 0x59b6d8f0542cd3ac58c7c329621174b2eca04b71ae8c59dc295d2b962b5f9e7d);
(false, 0xdf9b3838a957e0c756f0511e932cc745acbdd28dcf15d0976c74b8d038b03e11);
(false, 0x23fd6604b1c52e89a5cf5a42a27a700e63c1c8a192f4e1946e843ab4e2cd0b50);
(true, 0x2f314ddab8c8ea4af2ee2fc074969fedff108e6dd1fffdeadfb5e1c09f37b74c);
(false, 0xd3c999ac09579c6befb44f3bd7d9ec6b6121ebeafd0d10d59ce3db65b5c70243);
(true, 0x54af7e34b0a7455dc6c8758f530a4486046585ea6071aa018c0ff9eb018bc073);
(false, 0x5a9f1ba5969ef050801ccb05b8cac7546bca3397533e42c3a50b5fb7d02df229);
(true, 0x11fd3ab9ccffdee48e84914060e7694f19e0facba6e4be5b5ec32040bbc3b42c);
(false, 0x4627852d728f801fbffb9062295608b74f4166dd95ed8793ff8aa2e712906f1);
(true, 0xebd8f483739b6a88272097ba1b82731f62e5c5581ecffe3f6fee9081bad1c44a);
(false, 0x85eee6a5b3de2ee9d430809d6902483035ab509b75161ab439bdcb1b181dff4);
(true, 0xf7b928dbcb0493fd7a0085902d850ed979ac54d2b09b35e0f5222502d6b7616);
(false, 0xedcad937955fb1432048ddf8ccd280dc7afd872455774736a42000c86b4a103f);
(true, 0x2ae7a873e404b3a48eff79b84224336af9fbfe146b47981dcf5fa735ad528a1a);
(false, 0xe04398830685690df5e208459a98defd8832b5196e2be0b8df82c16c77f7f5);
(false, 0xfcd96ffebeb7a47ee4590684b7c9a2e0b8fa03beabd83654d7d76cdbbcd60335);
(false, 0xa740a7573695f572d3c174ed4560cbd69eee3a8e77be3734bca252c05a6933a0);
(false, 0x4c10a29d61779fcc20538fe766b7ba167322dbfe669dcbe6fed8df39242193b6);
(true, 0x193a2a5d0e71936eee0cffac8554786401b16576e6a780ed17b8ab9206a13ebd);
(false, 0x60c3c996a0a562357f8a2b1dfe6a1a98d55c412235f3d66ad32a6826b9e8d121);
(true, 0xe56b3e3cccc828bc2fc2f6e91e83bd490f1900966d58587501b66bae6dd79fe1);
(false, 0x9c82adc5593be14823416d07f9f833db891a9f58ca31315a0dca08778edd591c);
(false, 0xff5fa2b8eaa15963bcf8f4d08ad28483801b21e4ab054838b84b2c1b7eec2911);
(false, 0x32057cfec2c8b40d8810f0fd0f1bc108f4d4bf6fbc21b9a5e7e521a26d065898);
(false, 0xab2d3277a3919fb090c5b011b0174c465bd9e87f95553f4ad7734df531758636);
(true, 0xb3ccf90bbc83dfa0a6a51c683d8d9455ca0ef7a6b1e2e3215d7d4aa1d76acb8e);
(false, 0xf9f1bfe8232e1a129def837ac45fd6dd4ff071eeb8c7052589e827c474ca4960);
(true, 0xebd7de2c0d47220880332e2fdcec8d0c32ecd816a325e9656eca4dc8ba40d125);
(false, 0x4439830783f364ff8326337036fd5b26868085c15009f456a82a1b0880ff7d67);
(false, 0x2f41d190d91e77680712007969891e3ca1deeeaa9415496a1d4e302a4df1e551);
(false, 0xe60a0cb18c966612d38cc039609f7ff3a2de07efeaf428b0a465c13b23621739);
(true, 0xc75a30555e78aad072191476bba91d8369aa498d01b13b2b7b4707e205f20a94);
(false, 0xda1583e3ad79ae5ecff6ebda1b774dc7dc00d278dd25680f869cc30585dcf0f);
(false, 0xd3718f57d9db98eb139f5f4e3a41e28d035f899d9e91a8107efe15b79a27c629);
(false, 0xcebb240edc61826baaa5297c41e7a8137af81c8113dc9c20ee1933583e3f7494);
(true, 0x8b391b2d59c8e63ab3fa0a40b860337b5aaff347b3228e323104d498da3b6418);
(false, 0x3d46e9ef5aed4aa9fea6810de4d5e822316732bcbdfbff222b7ea641d0f4c236);
(false, 0x2d45701fda7e3d7f4ecb15fd4fefebe30788a1a6861a4f6ca1431cd8c329e135);
(true, 0x6d1ab84b6bfc3dd20fe5eb07933ff7ac3f81ac780b4e9c3ec8f773b97dda779f);
(false, 0xf5c92d577891d8d5e9308b7380703c776943d20df29457a43a089efed2324e08);
(false, 0xe88b7de3f5fa482be7b122800f456e1688c08618ee100504d19da17644a084fc);
(true, 0xfe3b635c4752201380648dd222ea1a37a8b56b31539ffdeffff0bab1e20a6457);
(false, 0x13e1aace41718a701cfc777d12d8d44229a07d9deb4b28c637ee82e18b6b8866);
(false, 0x56436ab347a1162845d4c6b9cbe939adea2c4f90c169d40a97e58c7fbaec7a9b);
(true, 0x9b77ec69617f51069699bec6f62797e61fda164d9ad2f53842780fb17e45fa62);
(false, 0x510d851c47baf8984835e68c845e2bb545d52977fc75a523d9580f6237793779);
(false, 0xb9fded35e510eaf5658921bfe5042746076d1426453aa249dcb6bd3495e18ec8);
(false, 0x755d14d98ff4cbf80f733a8570b5b20dd2d2e8c0fecc7ebe2d31bba5e4b33192);
(false, 0x83362c631c75685e3615425a3bf2d24ad3517a0496f1d94b79cc3fdabf3fe22a);
(true, 0x0)].
Definition ops_k1 : list (bool * Z) := [
(false, 0xcb35b28428101a303eb9d1235992ac63f58857c2f631ee6936d3aebbeddcd1b1);
(true, 0x342119815c0f816f31f431a9fe98a6c76d11425ecaeaecf2d0ef6def197c56b0);
(false, 0xa69c17c116bc196cf7eeea54e921c6c8a847cd1fce7830438b85c5d11d8edaa9);
(true, 0xad2b3931a9891201744bcc89bbb32e3afd8deed03753e4e36ff188142c1ae831);
(false, 0x659311991ca04078c1465534151e770c98550f899013bf61da72261783756574);
(true, 0x25c5c9307759a75241f547426a6095a0bb85d8b106acfcd2732e68d811be1c9e);
(false, 0xe6a376128ed85c27cc8d1715fe74624dfcd01ee0115740f5c5e017d0161af012);
(true, 0x93f65110c76f11b07c58e9c0e2a52efa148307670282ac14182494421e374bbd);
(false, 0x5e7003bc5c5e610d341ec2329dc7b1ed2c303306520bbc0fa534e7a7bd8f5dde);
(true, 0xc9bc4235998f210bafc9977fe99b5039047652d9821ca9d0c8a80c4ce980245e);
(false, 0x32f5769efc31029e0584dbf3e6a5e370540b625e0b45daa714b9cf24586db45e);
(true, 0x1a3155af6abf5bdee9a3650a76f935852cec622fa454097ea6c50bcd3c73657);
(false, 0xa970ed203cf82d78993982874828630b31f923d00678c56205bae895c74eeb79);
(true, 0x2ad68424fbd3df569a0373ffd2d460262e251a2a6432f19b8d5beb1c8883b65b);
(false, 0xfdc05316bccdef41929bb444f454112992782117d25da4d2c0db71c8b74b8788);
(true, 0x4b37c8b6ea2a57fae321e09e111fd106a0799995d565f545ff2511e711de79bc);
(false, 0x5ec9ea081be56f477e52d9ae87c1e0b2de6c3d9e3028a9faf5471bda5259dc98);
(true, 0x75488fe6d6f5555711738503b8f0d5e0f8fb600126bb71e7f00b6042959baba7);
(false, 0x4004a33bac0d8f62d3f6c31239916e63f09ec97157baa54f5debb8cbe42b9e41);
(true, 0x68639c1646ed2c0ec46965ba91e858fca8a3fb0eaa467ad500dcbe854902cd63);
(false, 0x307b140cd5924759a8a7433af4177f3f84b728d90350acc9a46c58a2416283eb);
(true, 0xea99047f80666c87c4356f01bba505b8c29383d0f1efb93c599bff86c144c93e);
(false, 0xd6b5cf9acfc8f6136cd1865243cba6195cf1d713bb80bbbbc37cd562105a2306);
(true, 0x8a7c2ea05451cac597ae5618f915c25646fda65e89e697b06aa769c6135e376);
(false, 0x4a6afd1c53c51ff03f1ef8b699756150670e26fae5218760cb22c3800e73eb83);
(true, 0x1eaf3b101e8dcd7ff2b4f99c319be7a1f7d6b73deb2b22be1e708d6afa6a0d54);
(false, 0xe8e42d16ee4dd99241b885b3a36b816e6d286c8d3e9c72150028173378d6359);
(true, 0xdfba4f8fe0dcfe15c4bd430eeff98965b9130f6a63c73df6c1921c22bb1cd254);
(false, 0xd94434077a3c1d4e96c5b3a2e081a85401a2628ae27a984e217363615d60a0fd);
(true, 0xbbcfa52543c629540020d2ce5eaee81b54727ab0be0f8642e4d5b16bf5b41d46);
(false, 0xaab4e6c2e159f2cd6bb3f953d07b0d3cbe283c4540962262287452731b1fcc02);
(true, 0x8182b17fc6dc6d8f3d9fcddd70c5ddfb0d0472210ebe7de98a6a10baac8d1897);
(false, 0xe11f6835001369eb75086850c070bec01046ba9c0e53c569b858592d253bcf01);
(true, 0x697c83c2ceda54b32f6c3b03618021c7f17f6e39ad989f5b4b997fe45d552885);
(false, 0xcad98b2b7f0a886d5c6c49b457e52e12f411702c82c4781c5ece28fe320acdd2);
(true, 0xbe96787c330b96736883265ffa6917bd94e0d2be9b7bcddcd5ca67c498a239da);
(false, 0x7bfa5d9b2231d1801424c515ce5da4a58a80657edd45be0188d1a3346b79faf4);
(true, 0x9cf4bc381a4f40e93b537c96215331c947b566574d328a7c83b9da1d007d4d04);
(false, 0x8f7af2ee5d876514f60b94223fa655b2dfcf11f32ec2b63f985b437ba029394e);
(true, 0xa69e5d458e4c86df47ae982e052155e7447d40e517fed7a1d397be3f23dfca7d);
(false, 0x9e8e880da673c5c35126886f5442a54fcc74f069ab5f4b17acd98f6ae0f9e7b0);
(true, 0xefbca2601db795f0b70e42e3608accd681143d91c27547f996cc4040e6ed2e8a);
(false, 0xb3ca12947672652375ced933e50c977a4834b239bd2dd34104bbc5a03037bbf4);
(true, 0xd79f4f01dca713bb20f7e4ec31b100cb8385182754c228a43b7d047a2253ef4c);
(false, 0xf714a25c129989ddb07bc33736ba00167e9b184172dfb22dda00c317a66fcb42);
(true, 0xd2dc16026406ae35a0663c4ee71527665968052eb607e8e61d9c839c2c1f4c8);
(false, 0x165af19d1a8f8251a10f075372f3abea524b343b77743970005b7145e6846846);
(true, 0x27096af8c8838142d8d79e997ec73b463efa3daa5871cee9ad4b57a474bcb05e);
(false, 0xa1785ce327b6253c5e3f3d54cfff680aceef47a5cbc144f3baa90f875e336534);
(true, 0xed2630a67f09ce69ed21a45976bfa99c7488941eb280101f0910155fa548b8ef);
(false, 0x78e2f3cd7964eb916b99fb98c6106d355416254b6817130351672621c022fef9);
(true, 0x517843307ee8601a66b5c07b23bfc8a5b6990dce19e27d1d0c1341d6e5db5a0a);
(false, 0x90b7accf9b0634e7636612afbbe7b0430cfe6f106996579305ab93ca24e960e9);
(true, 0x27f195f6f4cf4b4f4247222bc5e0a63c84f8dc0044d8434e6967cd633583ac12);
(false, 0xedc100775d0e753b864e9c138af3e85ce9babbdc55156e5f125b981bbfd6f520);
(true, 0x7a5876e995a23ca415b6401e8f1422044eb5d628b8e7f1be2f2b23b179638ce4);
(false, 0x34448962937c0d600c1967e421707c61a59d1c4adf47d1aaf76ca775be803070);
(true, 0xec9d8b600f104ad578eea08a5a5f33d2386a46be5c8b144f525b5952a98bf573);
(false, 0xf8840516c757d0a6c6f15a190cba025bea247396f2dbc670ddb91854bb82dc9d);
(true, 0x206dae4437a18c0b68bd3443b585779c016fcdf4c643b36a18e520f8ece00a7a);
(false, 0xb2307fd8e73711cbd2a5acb254cd6366ea58393ed307b03dcd9b9dd2666038d2);
(true, 0x182ff63b52c5f822dc158ee256f391cc6756095669c3d4d07254f4072031e273);
(false, 0x2573d5756ec32c905e510a4ed8efd39fd4da7ce8f4300c38b82ed0b8898024a8);
(true, 0xfff61f6a679952b10282c9d6b4964bab529faa70b621f2b31d3c88f0f7c7cc9e);
(false, 0xd734a7e52dbb035ffdc25990fa1ccdc84e14ba899f6c60d22620b21347e3109f);
(true, 0xd4884fb8826291f77f821c16080f56a85c05dd6a22b2a11eeb48cda23c3ead0a);
(false, 0x53dee14e1e679efe0fa5ddbb4474c4bc3b62c38fb29ad2f66b32d02cf7769e26);
(true, 0xca38791b0a89b2e2b2fe934b7923fa72237c623fecb30bfadd6410fd49ef94c);
(false, 0xb863f4f981f73bb8ce379072cb8929e3d5143b31be0ba2850acd8d2a9428a15b);
(true, 0x4e236135fb12ae1dd09f7b6c4362369ab0f04edf24575a62633b681957080d9);
(false, 0x4df58bfddc64feed703e053aeb426c49b42ef4e12cf39569dd1c47b17ace3b8f);
(true, 0x92776b0dafe4eca1bf06e30cd3425605d46299b3dd71d5ad3dce56797550eaf0);
(false, 0xc6833c3264fd8e7192fd60e10366d4d696497985bbec4ad97f9b79462e2fea0c);
(true, 0x1bb82722844f690161c0d8bbb1cd95161b50cf17a41214fd660fafb194ccf374);
(false, 0xf792a479fc3f4b006bc0a43c4c60e7d3f356d33e56a6f2a22ca8ac6f024f0805);
(true, 0x2cf6c4b0820a957e7aa0f16c4f1159824389a7cf44dc0729707faa7b91efac28);
(false, 0xdbea84bdbe79d31de5ff551604ff4e4e3a888a9e1fee97a1f696ea2385bed8b0);
(true, 0x90bf7663bdc4e6d78332bfde61ad4e1cd57db66bc6d1a5ea8feb6377c0428204);
(false, 0xb1b927bbe4f17c53994f61929fc540bfdf36fabe2c44a77620ef8cb461a05820);
(true, 0xf7c67d831900b7916f895052a0059974f3c6ef5e5d3a297603d3d3188fc69677);
(false, 0x840bf5343809468827fe4fced31324995ba6eb48219847dd627a7244cddd884d);
(true, 0x2451e22327463a96200349fc8b71b56548c54faaf0a7bc7d15529aa8603c4d8c);
(false, 0xe5fae193159084f8528ffa90342792029cff2f1d3e816df2ea4d6f488f751ac6);
(true, 0xb83c1c2c9af899a6371769e1c6de7227a234f115b608559be303c65fde028566);
(false, 0x33d81c3daac368d14470db3c04b2b8970860e1c0e5ff7fe25478ceb52b6420ac);
(true, 0x850cc4d935ae0a8674ebf5ea92f38ede47e98e1f02e478e0c2a50ceb5ffab32a);
(false, 0xdb3ab30aeeb3407905cb4cd5376fa82b0d04be013fa13ec1874252629371b024);
(true, 0x9c1e0d91dac37d1b380cc87b5daba9e4b1fe00284ee84c461e456d2926ecab8d);
(false, 0x94143d460ac5968e69950b84ff0c31708467c65ec9d6603a108e31f07b0aed31);
(true, 0xae2892d821619350acf649d9b047175e04193dae025d3d5f529d65eb7b4b411b);
(false, 0xd199bee5edcd80195e58a03ff11d217efa4bd55796ae4da1a5233cda3a5640ce);
(true, 0xfd3f35ae90e60e68bb9ee7415c8761319c6859e894542398558c13b02008fe19);
(false, 0x2001b659f6aa63038ebc76e9dc176a66951d74d7673d9098eedd9634316fbe37);
(true, 0xa5f01a846dd6063ac66bfa48a879fe5b448bc9da3916cee23a43be4478306ec5);
(false, 0xf22d7a098199475a8e37abebfab1b57554124dbbaf249ae015721fd5bcf49cb);
(true, 0x768255742da33703d1c25c7886929f283c4319245da1ec5403e485d7040bdb84);
(false, 0x13c8d40371df66fe1a8fd4efaa2987cba6b1351b438951b8bbd7d86a52f2654e);
(true, 0x3e05cb92b89ba11163eae1939a0c4a15b5d0166d2729e60d1712e33e378dc4d1);
(false, 0x9ee7121ce457b0c95449a7c47a91a300d867c95108b19ef361f8ec42ef9937d0);
(true, 0x68be75e98880850d0f2b25c6f942754d24d8fd1a75562e91c00e444bdb6e526a);
(false, 0xff9692bc153fdd34a3e639d20835531e1fa4ecab124acd020d04d3aa038f40f0);
(true, 0x6d0c6bec6b0a25b6c94a9690c4ed47b8592c145daeadd0f803f6f8963a64d19a);
(false, 0x39967194978e4ca8f5847a20ffb23c6afe7b29b787adf79f428a7e06b701e32d);
(true, 0x70c83f08b44ba5724d92c2eb9419c939608e92ac2e21a7bcbed4fcafa973816);
(false, 0x9b7734666085e78da3a0b58d3ed86ecbc4888ce7f4b338f9f7bc496b5ce4ae5b);
(true, 0xcd11e957919ab1baa1c2a4623f859c2a5c25cc7d659283929513e274dd6c0dac);
(false, 0x60711e6d8febbde20bb683012ec65ca2fd2fbd4f528e7c88b2d0ebc1323a98a3);
(true, 0xbb5f81c1db4efde192811e9c18fb0247bba27044120bd6040fdaf6dcdaf3f621);
(false, 0x844c870fd70e5e0839bbd92f8f66a7397f3b120dea4dd8f31014d4d93974eb7e);
(true, 0xe86d3d213ce0751b1459ea7bb2b2d2487bfb4bc3778cb343cee44d4271f76cd2);
(false, 0x8dc6d60ce47cf022df5b6a2405fe27e827e8c9b4aa74bf9854429b4bf61461ef);
(true, 0x6c3c6a9bc06d13367cce6f18949a42901bbd382fcdca8d14da78a4b25e659577);
(false, 0x569c0da55c00e50d3fa8a2fb8bfd6e2fed3f2e01b6fb2c83cdc77db61fca1085);
(true, 0x1dc48780f65d7f1baf557b0eb4cdc417e2043a29b2c779b283eb45641a8dee89);
(false, 0x2b5339cc3c5a99cd3033aba14d2a1b84555b7b57b1e6c9c951ed8ccf0ae668);
(true, 0xf13eb2a3b5286ce78ef10cc980fc2b1e94878c327e2b87c70416377404b14dfb);
(false, 0x15777a281223ea5514ec527f34aac11efef9ecf0191122b55c2c7d7ae7b65e35);
(true, 0x91e2d4b313989225dff1c1dea3a2e3dcea12ec3b60022f3a2a60ac30ed5aafed);
(false, 0xca717f2ad06050149e714fa98e9cb3534a3e305d7aafcd12779e19f8cebf8a97);
(true, 0x70540af1dd215a4839af145f2dd96e72ee86038d0923faeb51d40539355040a4);
(false, 0x94a3a867589ded60a4d4c39da744fd73fa9cd3d99386ea5d4109937093929ee6);
(true, 0x1c22d7ae5b4cc23b514b2ab9707f58bd07983e00d77b97ca6887e66e27e7cf6c);
(false, 0x860972c9f748d4b8b7b8d51dc1dc7d837071e36594736378d26cd51d6fff0d78);
(true, 0x50f91d9961dc9f24b60a3945127d446f59cf19dc0004c74355218e2a214c7677);
(false, 0xaec30bb522ea06530a4c825d27a8642d2e54de040019594755fd88f254189b51);
(true, 0x5c1dc63f9292de085a39bb0737a0b5366349725df6689a15831e2c1eb95cf854);
(false, 0x6416e00254cad57f9c8f0da2900ba58381c9fa956905906b58182bb65bd19569);
(true, 0x729d9c6000029fb5f61b5f6ae1a23f77c186693585aab23bd9e18d20c0e8ee64);
(false, 0xb08d3b0ff2a61219c9fe4f6cc8558a0d2b164d481c18314bc8e14d9a8e2f6de);
(true, 0x615f38e01207114ff1861a43c5ebe1db8ab232c44ae354752c65e49e540e3563);
(false, 0x527b6941229c941541a7dd9976accb0b824821e92a8f0d9cb6a73e9a160724be);
(true, 0xfcefe7d2fcbda8097a3716a7251e36efdb713cb1eee281bb5c8abdcb6230e1b1);
(false, 0x557d86da23a0258e425f93b98d3ea3ab1b0de042fff9d114ad74066c3c184d83);
(true, 0xd162f4a771930b30b3b897386a5e94302065d4b187f4521023708bbf9b6bdc57);
(false, 0x9c4356850d5094534e637566f6c726ba8fcb613037f678a716d442bc95fbac4);
(true, 0xfa631c4edff9cb1c88cbd69b6f188ff8701acf345655142187e3b89a7c84595f);
(false, 0xe2562e55d3b198e3ef63f1037c61348b42c40e1f21b203f3a426e3818644fa94);
(true, 0x2252f429d4029c4a45e16765b14dea4fb90825346b92a9043423a099e9f1d93d);
(false, 0xb70adb31dd7be77e821726a8c664cffde80c3420546fff30135fd8a43eff556b);
(true, 0x7310862502baf1b478ace1d3dc2f829b7921559049143abc8810b822c3260973);
(false, 0x1db801d65431ec73b70b3c81d7fe4835d28296b608eacdd0ecd12e8542f0027);
(true, 0xc92a6397cfc740e02898c232eadd81aac13a16790db1e7e38c91c53bc53469e9);
(false, 0x197507bb87eaee76c33b94b7ce541d2199ae081c53a3b08a0b8ef0037f6ec721);
(true, 0x21ab75b6cccaee67388f7e747d0e564d40bd67982c750cf4f7f07f585e0df311);
(false, 0x2cd1272169720c1e819ae5b352bf34ff15c7b194636531ae3f73f7c0d8701b57);
(true, 0x5ce7e86a70c7072af7e4479f884e89b27ccc3863e312c79c0f6619e7c439f074);
(false, 0xdee8a576a51dbadf2e2ef4d898ea6daa4f2109b874c74b2c3f63d0ac5a0d0d6e);
(true, 0x3b05b489c04c2187b4a9d7a1367e2b39fac23afaa3bd3c0836a3c6177dc45856);
(false, 0x2b0b225eab80369ac2b1af015fb308feeadd38131df1858932b1961560e0a8b);
(true, 0x7ed493556a8f1396d627fe6973f99460d03b4b39175d3c741ef5d9f53cae4cec);
(false, 0xa341a365f2dd635e68534f13ce12049c7966cbd672fa3cb3f62e1fc38906e48f);
(true, 0xc0ddacbd87b975ce779ed42524ee1d9931bf9b5ec1212b1b87b7c083db73cbd4);
(false, 0x76970b97d9207ace885b30126597e78de86b06ef2b83939f44f623fa37173d83);
(true, 0x87ad1ee68b8526ae77432367a5daedaa6a50950e6e58a95a50eb1170a87c580);
(false, 0x981f3aee604bcbd7b5158a7cf47e16faf24521b7ba69fc91a1ef624738016a21);
(true, 0xecad9d528192c33d844a817582166d07172809974b51248ef3b3ffe2b817b6fa);
(false, 0xd33b8637be3c994354670f7704b974108b2d048151604b5b642ec0f8bf8a52db);
(true, 0xdb783adceedc155300f48ea5bd331cfb7bd8fdc5e96c6b11b3a15bdb46651f79);
(false, 0xb67714fcead854f4d4c22727fc0287360fa00c21c22e80006f588dc5dfe27f80);
(true, 0x5273c94931f5b43b3fddca7e15a73472857088a92beba2c95364be6e8c20c74);
(false, 0xe936539a7df5fc25c059320acf3a12c9979af7af882b889a707126ea0eace6bd);
(true, 0xde0c02b305b43882a8ce56d9a304fba1a06f347de0299f1822ae51c45788bb2d);
(false, 0xecd54bdd5f2d838db6dee30c756c9806bd8ecc5f5dee2bdac0cdfc84e9c0e86);
(true, 0xf7060c7095b0a913f4aa3dec9d992e9575ebd4fb5e0c78bf8f4f50a739be8eb3);
(false, 0x23b5c86e7068617c26aaede8689f6a954ec64583db3d7e0a74c0936453fbca38);
(true, 0x33f2da73028226028897cea817c0a01fcd9abd54702d315eb8cfd6966109d46e);
(false, 0xa41b8e11f15e7cd600f561c52dea0cc66e95a8b8e5b4bfb5ce5b98705e7635b6);
(true, 0x85325ff9903d466da37c3113a60e1e00fe555bd782b6f2fd2ae9fcb44a4c9004);
(false, 0xe918ab9d2c9cbcdace2f68930376c22eb8ffb01541170de1443a9c0b22ec86f2);
(true, 0x84f346c5c5f330740a3de736de5163cc8b858dec135c46172ebd15679c1170ca);
(false, 0x1f920a0a5493e54f7f0aa38908d72884ee541ac299d2840ce6a42c0d22eeb0bb);
(true, 0x8abbb205208a2911dbbfa33e5e94aa15d430c510af215dbd2a48fcbb30143742);
(false, 0x867ac1edfaebffebb462b9334be3f46f9e16e4e2546670de2b6329d78273107d);
(true, 0x718af586b76e13a633189294fea60f2a1b48e1a4ab0d9646c3190f7c66e50d8f);
(false, 0x652448f8abd4ba18764ead490ac6b489bee735faeba7368138520e0e8452fe74);
(true, 0xbd4cc188c69c6f8e5ac86965c65cf562b502dd7b98ed9b54709f92d25c690f74);
(false, 0x1b35aac1ea24fec1528f0f38e1da21f3ce60f896a171eb4674fd54d4e6e072c0);
(true, 0xfe2650879006eba632896291d99138a196bd7a3b6bef34f9e85aa08cfd1e1e26);
(false, 0x4dc90360e6a2876083f187f3ffb3feee5c347841fbef83e0cba8bad9f6523d36);
(true, 0x34d1dfc055ab8a6b9105c34d474a6cba02cba5965ab0e90fc30cc9e81de00b7f);
(false, 0xd64bedd770115aee5ba8a0577990a7dbd8b6fda15584132b6cfed17604190f26);
(true, 0x4b5528d391655423d32797139a862fc62f4cef428fab6c1aa29d56d218138709);
(false, 0xce33c3ae098e194aaf5c5df9e30811bc0c7592e465d1c96159de36691a5a1265);
(true, 0xb27090b7629536d502acd56365f06e90c380f5d683837d9e79d8066cff72bd49);
(false, 0xe49527104a6dfe145a93a241555af48b13236ab5200713c20c8d9fe3df8a001c);
(true, 0xb00df8f4a7a79067c177b99e526b8c8355c0f9587eddc597867feba3d31fed10);
(false, 0xc78535653fe1f65823a9f553e51eebc39b87a6d04a1a79df452c7739d7e50d5f);
(true, 0x758008bf43633aa80818728d5b8d753efdbf3df67222d0b60521225b1c182353);
(false, 0xdc6ff8606a89255398986e1545a4edd87789dcdce1039891aba3144eb1638d49);
(true, 0x7f874347ce8a359d84283f250be0351e9ca7ad7826ee6d80653a361f9b850af5);
(false, 0x8a93f16e1b0223af79c6c8c93d88c46e1ef2c5474d0b3606026b8e157385187e);
(true, 0x2a194e5b6298a3c8bf25d226afe4d30f884fdfca9dbfbae3bee8adc5a62a530e);
(false, 0x9b7992df133f447f71a83861c9083a0eb4b57a6a270fa6b14c58cd1fa7552c7e);
(true, 0xc7ce009b4be5de9735a6c2b354d00fbf3c1633770b4bc3af6e0b0ffdd596b50c);
(false, 0xed31f40d405010f51da05f5989d408623cf8a2ddbb9066c25b0588084c3089e4);
(true, 0xaf68fc9b7387a810f0ea288b9e98befca1411c41d6725085109c5febd77a268b);
(false, 0x19b22b3942388afc1f32d4cc42f0adbb17b2ac973a795fdc90d4f2c232879301);
(true, 0x99b092455957ccc10fb160e0e16a58a0602994993237e1522f93a364c45b6311);
(false, 0x1d6432c2da8f757222036a50616ea28828523cd971cfb5a82f1b2341c6a59423);
(true, 0xe531526e7bb34216ef2b640e088e2bdd2aa1a6d4e95e4be0319186b6ad7c7c2e);
(false, 0x63c1573f8516f133d55f059a7c3fde79c1f0ca62d0e008ce68d6c4301a3616e7);
(true, 0xfb5edcdf4a00eeb881d382aba0801ed39b8932e106a6ee03633ae55c156e8a72);
(false, 0xd5334843bd6d76c5b5a5fa6a0b22caa8d0d10fc72211528034cbb8cb1054a18f);
(true, 0x62c7b4b5c40013fe5aaab64168dc5b05f7f5e551ee092560d1319b6b895faef8);
(false, 0xbb3827fb22788337ae1df75820c10dba1d0a02a01923505ce4f2c300a9fd19d1);
(true, 0xf10134671de373ee7a98c27e438b9fdf3e2b5c4a6e06ef66193c9a3ebbdd96eb);
(false, 0x66db9e23da9f2357bf6318722ea787cd09ff5ee3c6f23f7c86d0b1ee34bc9187);
(true, 0xdce4d2903d8debee56cdd66905fa952c5ddb8bd2418c6bcda1dc9c6a473602b0);
(false, 0xdbd551b4f4b064658c6ae01f2bc16c90bd7b4bb15f3911fa975d488a3d23946c);
(true, 0x78cc8ecab967d37cd6b2da4cb5e9a0ab77b3c178f3e8e2de8ef8578a28f6564f);
(false, 0xfd07cbc6b6fac24360269e3fb3ac3d310bb1e63da2474e7069b50aa45294a806);
(true, 0x9e939eadd68cea5832b8b6b77cb2a2b527b141985d88d766fb17875e3e8a2080);
(false, 0x8cfe79c35d9c37ade49de818e690ea5a4e91ab2da9c49d78caf19deb13b78d0c);
(true, 0xe80835b2aa686d157f2a33e26e0acea88149acfcb2a29aecc27a12cf23766fad);
(false, 0x86e69eca4123bd8ed48c0fc92b0ee76ab6b5c7918e97587652c8622fdb04255b);
(true, 0x34ff9095a7ac1a5ff9e3c459a0a8f8c5584d8c312060232c08f8daaddb0a8e3);
(false, 0xd9b4f2cfff8d2a8578266507be4f45f9502a09fb7d44db29a657839714796ade);
(true, 0x60e22764990a0b794c7d1de3b54202824dfa35a9f84aa8477041e667d4182514);
(false, 0x47f6f2f5e6c3aa727042bc51c1d8cde6b9da044815ca4441951e73f796463a37);
(true, 0xe463b1f3be7bcf0121351bfc988da8ee9a3c81359a1d2f522819a1e5548a2a29);
(false, 0xade49f68d6fd6e487cf915068fbc4ec88a0ad4d0563220ac502786e1aeb704fc);
(true, 0xeda39ec07448eb34008e524710aa5e618665d873d8511ea74c867aa4b3dfcb80);
(false, 0x354a8d416df2b76ea671bd2d2a75307b9f9fa39d760f7fbd7f5e8ddf395a08b7);
(true, 0xed5224bd4a473b716dcdfa4d54fa885a648f186aeccf5eb66f961506c33e2f78);
(false, 0xade8d83bbae2c4b420a9ce77a4eafde582547186f02ced7e69c4f2b9dce10d82);
(true, 0x2a761a7dc5e8a55deabce2d7b0c20d12518c1d2f9114ed21f163e41cff7d39e9);
(false, 0xd5d7222416c8d775e5be42e1edfca5f4450acba72abec0b9a8e3fb4fb3638fc8);
(true, 0x8b6a8d24ccb7d31a2286e7136b78a4b2223ea105aa37c76335a599cd42d08139);
(false, 0x6fb28815a0ecc97bf4a050d191cffbd517fb249ef252208a553ff491df4873ca);
(true, 0xca42f919f1df91da1a791fe4b2cd9c6746ab246901643f22a4e0b23baaf9dd52);
(false, 0xdc8ccc03200a59d75dabc5dc646054194dfa1fb9262aefbee3773e8f066b4080);
(true, 0x71bd58e350d2b45c8397e102c7bd224d01f57ed1d0d4d2fe28dd1757897fcc40);
(false, 0x7cf785896872de292ef8d04c9a4bd6752b0283b334aeeed0926d62c60f84c63b);
(true, 0x7a305781e019ba6b148ba056630113ef1830fdaa5d0ba86fc05caa250a5dd834);
(false, 0x5cb0c9f432b28592337cb60e8fd2e4433de1e82146b736c25e8507e2c732f8b2);
(true, 0x59b7f9fa755e393a86f41d14fe1f4355255e0c02aa59eecbe0f8d5cb2bbce45c);
(false, 0xcc1308f867f37f966586c3aed97b75f5e0a4207c34ac1b6244031de9dc378b3c);
(true, 0x8dce13d16b53f0ed2e56d71d776aee9f30a72d0bbeab3ff635acd0f51d1fef11);
(false, 0x28cd61f487b08fe5c086fcd582f7ef4d038b3b1eac5dc027ce3ea940a702f395);
(true, 0x19a1b2ea3e2f9d1b03efa572c8bfd71d2e19827d8139cbcf71d8e330fc463a08);
(false, 0xf488531013396f122c6380fa9bcf529a4a1a8030f0ee0fd7f086881f3b47296c);
(true, 0xc85eaf6bfea3313244ba71523b1bb1e4897b08dd97961a63439b7ada636f1583);
(false, 0x6fdf88045c35210fba115a99e7e1f0c22168bbd4e3696a2a7b1c88453ed23522);
(true, 0x88b56f437405dd5c8a57c4f2e77b944b210995e5c13adc843e442b389724f6b9);
(false, 0x850f025e53a726ece94569ab7f3110ef61eebe11db48605146ce512f7b9cc1d6);
(true, 0x9780d7cb0408d9bf2c9b149e3506e18ff42307ceb5d19b896238c9c6a7fbaf6f);
(false, 0x50c599c6c7eed04de4557b70629938a5efe449553afd480ac0f9ae995d344f65);
(true, 0x9ebf94382972af6bff3a9a57e24b68bcc508cedad241509f342b151e7db2f71b);
(false, 0xba29075feeb1944a203f9f27aaec6440ce8936542cda770d1ac48849547da262);
(true, 0x3d1cfb1c8ece579815a1bcf52cba51fe6d41c997cff3edef46f3b1a0ce8e2d19);
(false, 0x24af2cf595bb5989820036d1cf891744291d712a3b49a2bab3287a5931cdc57);
(true, 0x44565f3dd57f21a2781d6b23391b8fbcef09d46ca234cf171d9dc7248d06418f);
(false, 0x15d30e1cde739d10772cc7d6bbc109f5a3e23e6a66fd3a77e98839167464fea3);
(false, 0x70f9f0dccfa3e73c342b7584f48bfe7576b17844686138033787e8a7e6462e86);
(true, 0x50d5089b5a74ed3712292c35b44e806bb3cc8e35d3490c682bc028992692b755);
(false, 0x798ae92376ef80df046f55128ac898e9dd2bbcd8795657eb9ce04d680efd3ecc);
(false, 0x49a53a0c31d207a80c2079095835645344f838316e636a8aaeabd43754edf626);
(true, 0xf614d124698cbf302b12648f67e35b94ec9aae699ce2ac4ac30c2f97ae77b87b);
(false, 0x7684c61da59f0fe2930db6a3ca287d40264e03477ef83d8f00444cce3d0a9490);
(true, 0x9abb42813cf5a6c3895e188e6f88e3fb1b0252a9522933efa0a862052b52435a);
(false, 0x47bffd0e5dec41b22284243bd74d6439421f82331caa2ab1e3fe7f21f797d8c);
(true, 0x87ce2f8a06f747d4003311b4ab65f2b460dd06105f0ef62054a6ad6f8829c3d4);
(false, 0x9c071dff3bf3b99e0115bb6b03cd10d03c66d5c419846605d1c9fe0c094df90a);
(false, 0x73b144be9ca33547c5024e2b48f1d0d01e8a32a4680094cb4e388a350f15cc);
(true, 0xea5c21296b269c7f78010ff702bac9e39084c3046566224647ee7ec45cd82673);
(false, 0x5732107a973bb414651d1438e0bcfc9ef6e5f478c2867afd7e0a7c9288f79536);
(false, 0x1f16a3c84b9282411b8e811a7cce72cfe968d1f1b92d684a8fb7d274a38530d9);
(true, 0x73542a52fad68cd34fc84a1c1ed2bcac6cff9ce801c0dd7cc63de1dd66c67afa);
(false, 0xe40fffc9305a96c09e424d5085af7c67f4e7d7869677b7bd0a87aca7c96dabca);
(false, 0x872d0466917c9f912f2300c1fc71036b03cc87b37254ccdb57aca31f3c2e4da9);
(true, 0x998171cbbf98c642cb1f5c2a3f60694f6779727d4546cbb4053aa70e7f6074ca);
(false, 0x2fa2e6f886d4b979181be5adb130a17715b8c07ace29d4eb98f1cb2e7848af4c);
(false, 0xe47dabbbeeb549be40deed072d89cee310e2af638303050b255a11a80e01bdfd);
(true, 0xcdaf9041f8677dd58b4c901692ddecd1fbd06cef1804c17c1715eabb687e6b17);
(false, 0x50a221b2f178b80926755e83ed8b0e6aa965d6c9c2648bd7652d018a857abffa);
(true, 0x20b40cbe9c02da36ccf89eebbf40dc8b11816ab08dd182bd3e27829b36d2ce85);
(false, 0x3f903a9623f3a297a25a97efae6b1f15f72d2d5190278885076b5ffb16a725b9);
(true, 0x2887892dfbe539056f57c113b65b33b535c84248680d0e7eb6796ae6a4f68e94);
(false, 0x4def9248e6dff302f51cd7aac90def761ee0913e6e30a901726eee5d2af0bd08);
(false, 0xd70ec55e56ad99e96e757647b163998380d2135314ec6ba5669654e2cb701c9a);
(true, 0x9b450142e057cc2ea1d6b61937cf4a584a2eafaa291c694b3c7bac795ef7ca9);
(false, 0x26798f69c77aecbb9dc47679fa3a5a3b42048664b0936ed1f7d3ceaaa2aef5db);
(true, 0xc952d7109aad33a36e07a0e6bce7880afcfd78602a773b5787c582b3b65b09bb);
(false, 0xe7d985dbf677a15ded43ff92e325f7a8728474d593951ab233daba58a0dfa191);
(false, 0xcac8ee56873c714232599d2d5b3ccff13dc0eed19dc6ffe6958599909137da2e);
(true, 0x6026c28add89ad9101f0cd66ea6b5fe7cc27d7617d3c1e35937151a7e6c61230);
(false, 0xc95db58f46986400260fb47138c8cc7e07cd67d2adb88e746a72d00c58deaebb);
(true, 0x20884e7355c4e996e10beeed18d0eb59a8ab9efe966fcbf59f6ce3634ccd7919);
(false, 0x2a4bd615dcb92eab8749fca442567a011047d914ab262e9a230a75263a88abd2);
(true, 0x390922097e24cea7866575ce321f6a23d5bdb03a1fb0ad4ac7ba882037b8e613);
(false, 0x88246dec0a2f5c1781c111b275131f55b126fd8e265fdde8ac3989cb1274622c);
(false, 0x907e6ca0df806efa454760a45d6531e8911524be961db28481f68854ccaa76f4);
(false, 0x178d74f76eaa73bca5b6eb2002f00e70451125257f4bbb21afc676f885d66ae);
(true, 0x597e6e102fb22978219b5924de46902f6abf9a6e5a04e65a4c56cae2bc05333);
(false, 0x42344c89ce9fa6d61174787e0eba3437b9930069b36e38fa81717f029a015e00);
(true, 0xc83088e6b3791f3e7aa83a7d45619301350a1989d41646230416e778ab0950c4);
(false, 0xa62fa653dd6625350083b4e38393ec4ba6d7f9d8d81c7769e8759cd0f41331af);
(true, 0x430666e4307db4c9024466cc9d9d6bb621b66e1c18c902e9d45a91b9b703b168);
(false, 0xb7d7dfd2dd60ebc633df4932f165679c28f925b5ac1c11cae367c92589a57d92);
(false, 0x75a74a2e990e1651dddec1e928034d4da24fb8884096c0933e6136f675561c39);
(false, 0xac8358ff17e0d817bfeb4ef3654e06479b4046f4105d204bcdc996a0e620f8bd);
(true, 0x1af47f3c8bf1bc3299444ce6558889c8d92745da4d982d3a7efbf7fb5d46875);
(false, 0x679cb473dc12a2918c3c3827168fd9e524ccf4f868b3fd2191d09eb1e500121a);
(true, 0x3792680c098ba165f0fefedd0b4db31ab7441fd42db2c5ad59800f83d7de3d26);
(false, 0xdf411aa363e4786d551681a55d89e6d7ac119e4a3083e8c79c9a718d8619b3bd);
(false, 0xea1b53c2aa6f71a051e448f87c88a9095ea873028a94bd4b2ee9af90bcb1eac4);
(true, 0x962cf5d9838fb9fc8dc74d7f74df049f7d85abfe39fc5339cec6714d59376a7a);
(false, 0xede379c8816bce900ddeab2f33b9113929dfc9242b63cba9a67dc5f5be8bad6d);
(false, 0x6321e085fdeb048016841b6a9ed4eabbc689e49d289e4aaab528e4ef1543312d);
(true, 0x3e1aad2501702f34893c4661ef8fd3dba7dd179e51396fc675d4b6dd99347fe4);
(false, 0x39b0150b6e95f57baa07963f4bfa9ced1c26ecc4c51cd8aeb46e2cad878df313);
(false, 0x2e0152ce0d9c1a5ddacf15a2f517b25627330c683614735674dcbed624e65ae0);
(true, 0x17f6a184c52be2960574258b00dc41b7d17945c0e4f265e240e90eef0b7b42f6);
(false, 0x61ac483b86acef279cc960de2414b52d100d00429d1bef1596a5a1e1986ed89c);
(true, 0x462d7a741aaf1d2fdd617d6cd96e093046c39d7bf1b53ddef68827f59ed5e222);
(false, 0x362429d6a8eb7152c8a25e4a154ab24d80b0401e5fe0a20c9a901fc4628f1cc1);
(true, 0x897c5346bbea118021d1db8ddeca17078d61494255d60d903501ab0d96dbdfc8);
(false, 0x4a4306f1fe4fe56cf8390f421fab831d29aa38e749b6fbe2e1011e229d1c4dc0);
(true, 0xbd1ab3a4b261496084afd99fadfb56f19c896d5f05c139a72e1e1fcdbb07be70);
(false, 0xfcf1523b82f29c2de448f6d989ac55b2df8473bf03b0568f47ba0ecb0bdd77af);
(false, 0x490c1ce453ca3fd42de1dd36b26e293a111b987c7deccac16fb161186ca125a);
(true, 0x3855482b858ff0489054da3a871a0829ec1abe06156a9c76d133a74243635ec5);
(false, 0x2e293dde18e6e71e43395520c05773ea44bad530ab495d611458e2ef46a7707b);
(false, 0xb06e1d39763a83a57fb67b677d4b44e12d71299c9b00785b1112809177da5c59);
(false, 0xb4a04407ebd4b6a776a7bcf22e2391ef82fcb38caa323d9d88f6b064243137c6);
(true, 0x3744b45e624b5e48ff3377f3c07d5a48a62ed058e0e7960d23aeab1b85b0fbd3);
(false, 0x4287ac902cd67c7e2ad5bf1085a4583c2156251d39355ae4d1eab8ae366e1da1);
(false, 0xba3a1732d8f416c8d30c483abba55c6650234c26cc68ee2b4b5b9dbe94eac59a);
(false, 0x37775d936f164f8a84a47a9fb920758d15245f8c54c93178d1c4b5cafe4aa748);
(false, 0xa4a58801d8546d2f02a4050f921dab5916a5a5dd44176f76551f3edbafa49fab);
(true, 0x55a917ba6b5d45d33ea48131d175456e0b896ca85247cc49de12458f2b48d505);
(false, 0x370e8f0214178e23448c3e2d2bf282e330be2f2967a412792452a0383df0b62f);
(false, 0x50cf9a814a661783423db02e4a5e06e785ff9a267cc04fa814022a9de2273796);
(true, 0xbd812c5cc435aadb43c291fb04112777d6607f416d48ecca063d66c94d240d4e);
(false, 0x15ed51763216385857d89c815309ebe43b35f69a834afdb5cb1b2cd34ffcf80a);
(false, 0x9f0934630df8621d6a3c6c02ff916caccb0616bde61bfadbe8e0e5aed2afa375);
(false, 0x7e719a2b2ba07ae6d322194e523da6eea7ede79a3be1ffb3fc12bdee43de1167);
(false, 0x6041ba759eb9a87f0bf848fa65af818d3fcfffaa0c80943b90c7449163936b3e);
(false, 0xa6a11f381b330e0eceead13193ca089f4cdce3ed7c19bb361cec09cf272e6dea);
(false, 0xf46c2f33e3c1237340aa05dacbfd10f83f8c6aef5265ffc24313453af50d9f95);
(false, 0xddae855b43b0804eef5626ba19b0872ade9f6db236626d5f6b712d8485de4f93);
(false, 0xaa04eb321d85a9b24fb59178442a350eebd6e42eff6a4f491def6749dfde2371);
(true, 0xfd05caa0b09322293962fd72bda2746b5e446ee176ad48f275c84601549d0a70);
(false, 0x6a8bd9dc42a657e933a8d775dabd30e245c28ab041084aea3e3b55e7ea2d42c1);
(true, 0xc4bfc90afac57bab865c528292620be06399835cf740234f93a38c08c4183d58);
(false, 0x5662cb12d538dbfabb68ab6d4c22a1c04a1dc88f8fc4a4d327596eeaa32e1759);
(true, 0x4ea0daa54381eccfd69f5004b8e68145b23b787b79e16914301dbd648ef0140d);
(false, 0x56f7b87bfab14a26476110ba5c5de226fba2bb55be1f980d57a59324e9450861);
(false, 0xc2b84b6c7a201f0101162c4c3ee483b1fe5c431791db76941874b5ed2f7ee473);
(true, 0xa81fda848da8931d765c3e46d63d4ac5b8287b5c138d74ee6bf6b9ba2b4fc2c7);
(false, 0x4da71139102cb68a454ec12917859e2992226a7bec363ed6234efd1d595644e6);
(true, 0xf729185a464fc7e3b694afe6c82a7b1619f198b8ee901a92472cede7ee9286ef);
(false, 0x2c37d19c7cafccff4a1fae28df4e4a4e3d3a4fc9ae5f995d487c1f2447b64cc8);
(true, 0x50e04e127d5f199fb12b94118d5a1ac322cb3bdd23a79323113eae5d45368d76);
(false, 0x146934b96538b882e2bac33d25141c7cb701e0a3380e3607d45278ae43bcfadd);
(false, 0x2b7438e79a4f5a2430c8c84dd1f2fa7082d83b781514c1720c9f00cbed3b852f);
(true, 0xa032eb0660f3d2a6747dfec94e068b6787b6d2dd4450f2c669c86e2770df6400);
(false, 0x4149f77950d05b8192def7b6eff59801d2a0566c9ba12cb48d1a7d1728e28953);
(true, 0xa59aa1b51f8e8da51bb8549d8fa642f24b9f7719a560ef6e35d38af4569e09db);
(false, 0xac6752ce2f6319254eb10cb31a6bb274e610b39437e181f929be340d4c1f8c72);
(true, 0xa70d161b901af290724c7685d315050f176233c833142e9b7bdfc97473b1107f);
(false, 0xec229f70507f0ca38f3f7af43488b62d19571c14a2449ee3b03d20f7eccced8f);
(true, 0x5373712ab93710af412c924beee6a4eb7ddf72eb877d13040c2778b10313078e);
(false, 0x3e8fd2be29758dc10914ca0465b146ec7611762585f8ae1be6a962946c693815);
(true, 0xe247492b8e5866e6ee18fd530324052531ee190c1e06808627fab69d0c9d513c);
(false, 0xe015f29fb3a42841b8433e747cb4e0022325624e5613671d29ede5030e5091cf);
(true, 0x634b7366c6e4bebd20c32ab165a2f4abb15ba0209b9ae7c45c2ad58ea9c77354);
(false, 0x8a1f096fe8ba9a6ce81aaeec7537737c5b92eaa6051e1e4245c7fa742a924fb4);
(true, 0xef00db3e25dbe969ade09388984cc75fe0aa0e5fe7c00046fb16334da3cd2988);
(false, 0x19b813c81558c2172c424ebebd74d5187c64a8870a3fa493196d20bd2985b56);
(true, 0xeac1563bcfd888de09fc7fcbe871bc562c4b70f1240a8846a900c66fbd2675ca);
(false, 0x8474e018b6ac5b589f4749e1b38d6adc60a22c9eddd99afdd8e8d6044a4d4e98);
(false, 0x8df6afc453659936eaa14ccfa4cbd75a49199a5a40838876176e6da39d169bc2);
(true, 0xff5caf8da8deb38d5833f1ef0047eaf5331a5e49802cb29843c99257ffab9b9e);
(false, 0xd8d4c3fb404a84f9a0146faf112eb5f7b8482cd2d86a4736dfdb78f4bd319ba9);
(false, 0x4026935e27333c9997ed5080700d1fe587b0a10e52f3668cb1ff2e53bef165a0);
(false, 0xe91116989d2c29ba1c402a42220bb6afafd7a1d89c0f7cb6f1415f6b30d72782);
(true, 0xb9431bd34b02aced50f20c6257e46301867c5a638cdf4f97d6beaabeb0b9d37b);
(false, 0x9b5ce7f66fb114a71e108c251df1485ab6f06b1e5babf4062feaeef8390f74b);
(false, 0x39823a814982236ee6a11487982e893d758c2a2220c8b90ddb245fcf7db25e13);
(false, 0x3724c9e4be4072950bfe2e6f6cc5d9a65ba15ecd671edff008bb8977b40d58e3);
(true, 0xf5f3756d498626e2c95941ce03d19247a0006ea31ba8a9c5708e9a6ed184b3a8);
(false, 0xc693b7be868b7aafb474c7db3a3828e044558002902955a4dbc8591b409d3d1b);
(false, 0x5b0807dfc13b599d28fc2aa490479cde20ec29a0f79d1fa41ba2d44364eb164d);
(true, 0xc4e0783865ffdb796c466718af80a7e0cb988f8f821b4d84e09287ee3f8f03f5);
(false, 0x1b7ae9164f9be251eac12e6b7c1ba3e2ee99693aa9bc790e19af19181d90cd41);
(true, 0xcd2cac7dd8ccf1646e4a621d7a299a9e0f2fe2639638044e8577fa0f5d91f425);
(false, 0x98455235999e1e64ebb7e53853d08ecc54f26431c221315dc79c2200f1b28e62);
(true, 0x352aa3669ea4a9afc9b01dbf934cf495b6147d51ebfd599bf2bc91057f6f6211);
(false, 0x5ca4695b3a293d70d533ec2967309a049b77e935e713bf016bf8d3aa8e2e8691);
(true, 0x95fbbe8eda94faded0d0aea5cda033efc6d22a7200f904ca79fb75617324e8af);
(false, 0x8e3fa477123b584f2d50b6f126ada57e27a8f2868ca91f8fd9ce85a1f920cf12);
(false, 0x3b49c33d536bdb2e909079c762d2053f34997113063cf72adcab7d7ddec9faa9);
(true, 0x1f2ec02e6466b6d8c72f9d7f5d8ecd7033ab03d07baaaa43ce78c20480d033e3);
(false, 0x62c33e0b9150e0608b29448fb56bcef22513931a622e8631b498ae54b22262a2);
(false, 0x98706a34365fc35f0bf58006b8086053e00baca29dff996227401c8ccd9179d7);
(false, 0x754e3f3b8b39783ae1d98f7bed4a33a9cb83a2dcf3dd96af1ed15030279b19e9);
(false, 0x3c068fd60f94049af681c73e180ffcf374dc1a14a9af44c5f810584e384308e0);
(true, 0x8458ac5ebc5a27d0fb0bcad02e3c633a74b7b3f75d9026b0baee96d5a86e6447);
(false, 0x43ad50f41bfa633e57f69e14ee4d5a7bbc3bf51c9146b7eb88fdb7222c3eb6f3);
(true, 0x6e7ac2b4002d16383bbb76e19c46d11e4943d406572749ca6437226f5ed5e0af);
(false, 0x66b7745de248b97277a5615ff0bb462cf6e3c3e46ff057f7cce290d68ec3315a);
(false, 0x68723255cb589f934be2b1545a295f0260eea2b5de3a4a9e94f804ebd5eb2ac4);
(false, 0x75bce0217ca8b8c758150ce70761406c45bd0d802840e0d7d93d29a8a0b8b164);
(true, 0x3ef132cf7d12bdc105260187684881700060e59cdd9bfb36f8b013e06b3db0);
(false, 0x5e17c94bd2c6d7b61037cf67c54c31856932b27be78c6d84d13c0df435b0e418);
(true, 0x11852c88e53cf13c381f4f44770421a8edeb1a2aa5ce0ab2a4bac0e9828dfd5e);
(false, 0x69b6343cd46e3261cbfba536047eac826a6e5b069d0511ed854203a27dc2d6ad);
(false, 0x1d3fe586613e4a9815c3ccdffefedf1f536fdfc332940ccc5ee0db4890ef4566);
(true, 0xe913bd3cc40444a7a62bd51a89b61dc8310e47f94c8f56737a7166af88bcf547);
(false, 0xf839838e5ea18c0c3efc4d8a88787af906a6abca84884bcf498e6353b96e4ae4);
(false, 0x2d5c87588d26f9c1cabb2ad6143c9145ca8a25067d0d0a1d1a941ac54f1e9ea8);
(false, 0xc9633d6252ea9df0eda9df6c2913cead0ac51d4cd58e74f5da5e89ea5d228b0e);
(false, 0xe271ab4ebd11fff0ec68a819b151c9ad16b2402b2fae6c2220fdd66672bd4063);
(false, 0xd36996ae84fdc0707b26792cdfab4100a637ffa1177d4a6e9b004ce2e8e408ee);
(false, 0x82f4035a2f943ba8d23b2fd98a9fa96b84620ffd6fb6ac5d80d2d89c955d0442);
(false, 0xd9e9badf10498fba162eb6b719bde60c1168f5c29a9c252fc5359bc67bb0daab);
(true, 0xd58e4dbb39976789cac864c457839241a9600925ae5f118e90b5111e6ee5f145);
(false, 0x67b0b964a2f26f16045e777230c8030b954ce902aad8a9d72f137f3ec973617f);
(true, 0x8030a1ab44fe730e18afc3f42dd9abe34c9266904e5b9faf883c32b833814b17);
(false, 0x5bafce2495f2fa0e74c1c0d3eb547c30a3bdb10201f9724e370643cdd2e06c4d);
(false, 0xeaa21ee4d3193ebfd4ff0cd3a3850906f761b0696a90c5a245d1acae275021eb);
(true, 0x9848ac3b1358d674d92dec61ab818763f5e3f09c18e8545572f1dfaeb4154bca);
(false, 0x4b2f02323795cceff4fae57277f199eaaf613c32c04e08d2ffa33e825dc160b1);
(true, 0x2597e05ab9ad7bab6c6042dc8b0a08020fc46a590057260d1343acbf9a9dc29);
(false, 0x4dfeeeb6f36c1a9ca52e3abae72aff21f3f5cfc1f1763a5463cd3f9419518c9b);
(false, 0x9054207d23fdd08ad96b38a135a128fb3ef816f72a9d5f1f52bdfd118ba86b4e);
(false, 0x9cfcb3c3101bca8208a3879277013a90fde33d7e52688c097ada6a913a3e7f3b);
(true, 0xfab655ddb77e8b9989c2effc19e228c0c72121537ebd7ec3c6a7e4d048847d2b);
(false, 0xafd086d090b268755bdf504137173c8ccc46493d1d4201e9916a757f7b00dc70);
(false, 0xa5539e4c2a0cea6c4ede3f6173797a79cf2787f06f7e96e45e56c87a2e153893);
(false, 0x18338c0dbb8c4b2cc1c0beac6fe6aba94372e897eff057934f4f1ab15a411201);
(false, 0xfbd1ede4f87d76496c35e8768d3cc737302aacce3580b0b9925bbae37021f505);
(false, 0xe87d436bed4bff39a438dbc5e0f2a0ab3c426665c18963a027a08bf1b5481af2);
(false, 0x6ef473b5991356ad1b67f3fac06178cedf101127229b3473a62ebee5a858903e);
(true, 0xc9dec5ff3cfd2b46ca46f2e1e2462aaf8500d13eaedffa5622486431a4defc0e);
(false, 0x98878284e0dad18c26ef85a11e64f28c050b597a75718c02f4b113be0d7f4566);
(false, 0x54872f7c6339d01480fd341fd5d2488dfd73172d95ed1155432e6e89d3398c0);
(true, 0xb652eafe317f809ebd0d0babb231eba646f4bf5b1c3e02f7e018073689be34d1);
(false, 0xaeafae58242a90e531e26ad3754e9a553b88d37d07cae8e35fa4185aaeb6f158);
(false, 0x9b3f6216667833ff2a4bbcd12ac27afe4a51a2d3b07eb0e78d312eca1f7159a1);
(false, 0xf6c614511660dd458e525fbfb354aeb10fcf1e624c2f26086ba3729f78386cc0);
(false, 0x2fa523c29a33f7934f4e62b53aef395863ff174d933527da8937c26b6a5c9c60);
(false, 0x60610490a84968ba2933cdf68cdfad9b184ba2853935fd774bef4e64377ba489);
(false, 0x3b9e1fd3f452018f0e9c2ee69240a880ee147a50256c489c9338d92cacd255c2);
(true, 0x0)].

(** reduction modulo the two primes: 2^256 = 2^224 - 2^192 - 2^96 + 1 and 2^32 + 977 *)
Definition low (x : Z) : Z := Z.land x (Z.ones 256).
Lemma split x : x = Z.shiftr x 256 * 2 ^ 256 + low x.
Proof. unfold low. rewrite Z.land_ones, Z.shiftr_div_pow2 by lia. pose proof (Z.div_mod x (2 ^ 256)). lia. Qed.
Definition adjust (p x : Z) : Z := if x <? 0 then x + p else if x <? p then x else x - p.
Lemma adjust_same p x : same p (adjust p x) x.
Proof. unfold adjust. destruct (x <? 0); [exists 1; lia|]. destruct (x <? p); [exists 0; lia|exists (-1); lia]. Qed.
Lemma same_trans p a b d : same p a b -> same p b d -> same p a d.
Proof. intros [i I] [j J]. exists (i + j). lia. Qed.
Definition fold_r1 (x : Z) : Z := let h := Z.shiftr x 256 in Z.shiftl h 224 - Z.shiftl h 192 - Z.shiftl h 96 + h + low x.
Lemma fold_r1_same x : same p256 (fold_r1 x) x.
Proof.
  unfold fold_r1. cbv zeta. rewrite !Z.shiftl_mul_pow2 by lia. rewrite (split x) at 6. generalize (Z.shiftr x 256), (low x). intros h w. exists (- h). unfold p256. lia.
Qed.
Fixpoint folds (f : Z -> Z) (n : nat) (x : Z) : Z := match n with O => x | S k => folds f k (f x) end.
Lemma folds_same p f n : (forall x, same p (f x) x) -> forall x, same p (folds f n x) x.
Proof. intros H. induction n as [|n IH]; intros x; [exists 0; cbn; lia|]. cbn [folds]. eapply same_trans; [apply IH|apply H]. Qed.
Definition red_r1 (x : Z) : Z := adjust p256 (adjust p256 (folds fold_r1 10 x)).
Lemma red_r1_same x : same (c_p secp256r1) (red_r1 x) x.
Proof. change (c_p secp256r1) with p256. unfold red_r1. eapply same_trans; [apply adjust_same|]. eapply same_trans; [apply adjust_same|]. apply folds_same, fold_r1_same. Qed.
Definition fold_k1 (x : Z) : Z := 4294968273 * Z.shiftr x 256 + low x.
Lemma fold_k1_same x : same (2 ^ 256 - 2 ^ 32 - 977) (fold_k1 x) x.
Proof. unfold fold_k1. rewrite (split x) at 3. generalize (Z.shiftr x 256), (low x). intros h w. exists (- h). lia. Qed.
Definition red_k1 (x : Z) : Z := adjust (c_p secp256k1) (adjust (c_p secp256k1) (folds fold_k1 3 x)).
Lemma red_k1_same x : same (c_p secp256k1) (red_k1 x) x.
Proof. unfold red_k1. eapply same_trans; [apply adjust_same|]. eapply same_trans; [apply adjust_same|]. apply folds_same, fold_k1_same. Qed.

Lemma chain_r1 : chain secp256r1 red_r1 G256 ops_r1 G256 = Some (0, 0).
Proof. vm_cast_no_check (@eq_refl (option (Z * Z)) (Some (0, 0))). Qed.
Lemma number_r1 : chain_number ops_r1 1 = n256r1.
Proof. vm_cast_no_check (@eq_refl Z n256r1). Qed.
Lemma chain_k1 : chain secp256k1 red_k1 G256k1 ops_k1 G256k1 = Some (0, 0).
Proof. vm_cast_no_check (@eq_refl (option (Z * Z)) (Some (0, 0))). Qed.
Lemma number_k1 : chain_number ops_k1 1 = n256k1.
Proof. vm_cast_no_check (@eq_refl Z n256k1). Qed.
Lemma order_r1 : elliptic secp256r1 -> point_of secp256r1 G256 -> multiple (ec_add secp256r1) n256r1 G256 = (0, 0).
Proof.
  intros E HG. pose proof (chain_ok secp256r1 red_r1 red_r1_same G256 ops_r1 E HG 1 (0, 0) ltac:(lia)) as H. rewrite (times_1 secp256r1), number_r1 in H. symmetry. apply H. exact chain_r1.
Qed.
Lemma order_k1 : elliptic secp256k1 -> point_of secp256k1 G256k1 -> multiple (ec_add secp256k1) n256k1 G256k1 = (0, 0).
Proof.
  intros E HG. pose proof (chain_ok secp256k1 red_k1 red_k1_same G256k1 ops_k1 E HG 1 (0, 0) ltac:(lia)) as H. rewrite (times_1 secp256k1), number_k1 in H. symmetry. apply H. exact chain_k1.
Qed.
