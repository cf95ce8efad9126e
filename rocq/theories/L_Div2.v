(** * L_Div2: which divisors a, 0 < a < n, act as 1/a on a point of order n (C89).
    inv_r1 and inv_k1 list, for N = 819 .. 1075, the inverse of 2^N - 1 modulo the order. *)
From Coq Require Import ZArith Znumtheory Lia List Bool.
From Verif Require Import M_Py M_Float M_ECCurve L_Mul L_Field L_Prime L_Prime2 L_Div.
Import ListNotations.
Open Scope Z_scope.

Definition inv_r1 : list Z := [
  0x95276d983672707fcee754fd8663895a607bd60223d33ceab22ebef8f3e7ba22;
  0xa777dca77e9ade6f424982ee3c0eb5a3cf18782780f1bc887f146763ccce1544;
  0x5609fd079e6f83641e4b38047723af5a5f986297253352c86530267f72e06544;
  0x9b650c56f0d229348db56380a54fba5cba39a56ed184b9bee128e01b8128a1d8;
  0x3ef0bb028968d39d3fe2d9dd70004735e8fdf368b3bcee7ae6341a91762a4d88;
  0x9fdd0e51e0ce2f8d83864c11714e5893be1e1dd956d160c8e12237d275519ed0;
  0x7522086a2942589ee9ca0aa325616e01cf0829ccb69cd09cb24ba421f9f647ad;
  0xb6d89519356d6cbb6ac323181ed167f296f2dff51b7038c41def01972c2528;
  0x6ba5faabac1c8551b6875b422981a532b68d9452f200ea8d7b46715201b2b795;
  0xd59ec63e6c40cc5d69e16189747731c106c846b62d629a43f66a1df6487280e9;
  0x454b2e29c504ee7c4d5c926d36c541925c1c05a9c4dd8bb11741964350163356;
  0x2419e007a7016c366c4570f80a274bf1d2cc248d27f9e628940c42a627d51100;
  0x874b469f112ab06605e1816bd5b060108cd551337070a508550e4d058b7dd76c;
  0x42ec6eeb0b8a965e14f689c5daf4f41f76453dd5e8fde3da6110c3bec916338b;
  0x3a52b502fddf3629adb4f16d727bfb16f1c21210ea808e0b7e7579e4cb83720;
  0x5a0a5a1348595c695172b57a8ddbb3bfa4f43f39571ef5f61bf460f5648ff474;
  0x1f61abc5ae4ec6ac9fca453caae16323866e78b8b78d6f14e978e2f5ce50c0b;
  0x509806fe3c7191a2f09bbedec65e5e2d5bbd1aea06a99a26483e5cfae7dc1577;
  0xd1a9099b28ee1994bfc6cbcc452b53648c697162f27eac84b1d0ecadaa549b2d;
  0x7bb28e5d535ea5c940a38af1fa1f4d5f6e4f383ab9d119aa66dce8260760de90;
  0xa7c6980bc5caf0893014573326bf7cc6180a564fd735ca10fd54fcd27d5322c4;
  0x707b68a5eb2a4683442d0a1f81670de2bbb98f2c2ed609205903d470a5b52bfb;
  0xe07df4615367f685a0dd474a627772bed79c9774dab8f1ada822a467095f9275;
  0xd0839bf8a088983c82fd8c58cfb76199663439a84cb3e909c214374df4540da7;
  0xa13d246e2827b01bfc209aa373de8adc2b55167a61b0d743bef6497a4dc34c04;
  0x507ce5fc26c319a0aee119a862e5b14b33d4aead794bb7a6e9ea66d8beaadc36;
  0x37bddbf041dfbb883e26a9e99873f11a2c6a55cb28d3244da232462529745939;
  0xfa9544a5be300d8fc9a32ee97eab041c802d284b3ba5b712e7300a00c058305e;
  0x4185007a167f223db243cf637f61d51e143aab06e5e542ce2e3a4c9ae011fdc3;
  0x6840ba60c344aa557d05903bf893e72addf280e8e0a49acf5694277a9dfbb60f;
  0xdb89514067f5f06aa55a35ee823c9016dbcf9699879161ec0fcaf12b605f5c51;
  0xba6c118c248bd2c8dea5f967191c5b42dff73e9680689c3e2743cac2b8cdbf10;
  0xb8f147582e69b2327cbb3c8884271597e04f0ae2e9e9c2d85ba9ddaffca05ec3;
  0xf6eded63d82e8c478c91af8b5c1ea12b8a154d05f1ddf4926b0ebd50929db8b4;
  0x5b4a17b3bd199344cf6ccc27a9030583642cf5f89e85b70d2fc68a638f77b7ce;
  0xc537ec3b5ac41ffd2c9535d6082261ba4008358cb4fafff663adf0793406cb08;
  0xe3a897da2a7deea43e99cb201fcc4d4975f8a66d4db3228aa7108aabfedb2e30;
  0x6bf4cdc4381516e33b5fb7a1f5f9f424bf48271fca5f51bc960c1b67be60b17d;
  0x5c0c63d59353108dc298ecd29ba3a3da1808d95a5b13c4b4278a811204a9231d;
  0x8e95c112571ad48226fb9fb3eb12d9d939f2095535dff58041546a001058d4d1;
  0xc26b4092330e5891ceb0383b77489219dcd506c8c688e0bd1ee327b00c150e42;
  0xc9418cbc5340ff7337bcc94d8f2ee2fcfb46913b66664f6d03e464f561589f7c;
  0x42fe8d48c101fdd3069dc9ffcb878a2f1593ac40e02e4f5a7af357f6abad8967;
  0xede750d3b14353f35c6f835680190a7e35c061e5097dd0c59b539a58e4b85d18;
  0xdb3abc8ebbe43e9c9f17f2caa1e8d86d0cbdf30753f8275bfa8065cffa2f15ed;
  0xbdd099faee41c6492644bc46be4dc4ee13d8e702012de5a0b3d8eba81b0bb557;
  0x87c84092e1886bd0388f6a684f4cc87513151da1589d6c65e11fc2c163a6d183;
  0x618bee773d2cb6be495d8f1606f842afb18e562e34c5c5291e25a68ed1a4e54;
  0x26bd37457348ec8a5bc3e423216499bbf683affec226d4835f96280adf71c9f6;
  0x6990b04f615502e4a62b23a2ba313e2531fb031721276d46f3ca58cf35887aa;
  0xd17c23c8670d6c6c3f095b4778bf387cdc688f24696a0276ff11b5e8c6330903;
  0x84c4ba088e223479bbf4ecb7e084ab6f883ffb232646269d43875fa6d7a13a0e;
  0x6930c812ff810d5988aef353388d6a1091500b048098ba2037e99ab54e988b25;
  0x24a973045b885066090986079c52465c64a2b84eecd2fa4c925784c31cd55715;
  0x1fdf69078bcaa320a75e176829924bd6619e0fcd2f81142007a9709a1a64776a;
  0x79db78e057cc8f7351f0923941895e836dc4110090f66d50e10d5c3fbd931e81;
  0x98098820eec39367c9230c86c08b984db78303cb3ad46a2d57066874464da699;
  0xddc8bc8413dff12c9b003ee971251bf9098026ee1db128ce20e52c6508add3c0;
  0x46a710e20f6c65a17fd6fdeb36b65e1670d667cfe6675932152d6a8848164a52;
  0x51f22f924b2d094c4e843fb6880bff482a025e9502ce89965688268051eee036;
  0x50ddb98c8d5e961a68e444b7318f78a038cd2f445c4738e3ab778f48748c2140;
  0x2c38d66484669f0ef4f230d59a4eef1d3bbd764b8f5c022dc5ec63fc0d1232b;
  0xd6aa268ea780aea0ea0f5025eff05f80d6ce306622ffade87ab315e65402a28a;
  0x55c1def5ea9bdc91791cbecccaab7664bbada3cf23aa4ffa3db233866c57b42b;
  0xda4e6d13091afd17e4b209305b56864b5726b2ec2748eea5ae1b81a36ebbfeb8;
  0xb194062859903f9cf594f3f3183dea647f3b5285f101be9833fe1c5b7ac18df;
  0xcd7b4442cc11c573a84746e5c151d11731f1a6178a70a4b3f3fc1283aad85998;
  0x56265497871ffd8e73727ab90c56070b1d49e239d9bd7bee62947447ebceeed1;
  0x4b1286d29cf5818b7aeedd9525e2fc1f035461efe15b3a65e6d7eb7f9e493325;
  0xdaba4cdf059fa34fcb5ef063df03ebfe91b2c4b6d60ae2722178c10440febe25;
  0x35a29c95bf98c760db1a1f2981e7891e6cf044b4e7da4c187cd0224f618aeb3;
  0x190df957f4c363506b47235b9c048e24cdee73bed213b6ca93de2df4aee1f6a5;
  0x8f7c38bb13548a81fdeb61340fb44c2bff9ea268f0ee34864bddf80ceaee42b2;
  0x832bfb60d6bcac2b8a6c36c7f046254114b5818bbd6a605cca9644fe6b4f8efd;
  0xfaea6c8f3e6c7c1aa50f1ff658d9a194b6e4d0d910981c80a30b1b81dd47f327;
  0x41c8a9f0c89ee689bc7d4b8cbc62aa1d2cb903e3a88872dea4a9756df57e6e65;
  0xd704556d893761f8209c81fc332ba2d5349babf4bbee121bc109d131e90fed6b;
  0x7e459758d7e688c45e7900bd2de29723d268298e1652b53afbd7128a11569693;
  0x604ac4261205c3cbef2b319cc8c25c00d34c3f30833ea36d09d18d67b79f9c0a;
  0x38dcc3b2ef4e2ea36dc710b50ec04e5b083ee079240019fadfb7426129219d43;
  0xfea500016b9499bfae350c793f976d6f4a01ece380103a4a537290e541347e9d;
  0x85ba56144aaaf2fc5b55d32fb29f5318f5aeaf4a4ced82bab415fd4210b3f652;
  0xe5c5ce2355e4d0b06c3eebb58de18009e3c776f44853bf501e17ef3266678ef9;
  0x492c3fd879f664c8f597d4720c0989c693ad38f7321b3b3b79adcc1b084bd04f;
  0x1cabbf7c9d9f5186c645777154a86c067236d093bd233fe95899df0ee1913997;
  0x3ffd626c69e6f180c00f530c61f3a5b5c86f6879499986461072a023b5b2fca5;
  0x473c37561b0316d0af963f0a69694a74a018641458d7841085f83fbdbbd0dd5b;
  0x394c7e012d254c7b8ea8364de58b57c0e17e8c922946686a136e9a6b5e8f8ed5;
  0x1f3f60267391d1b2865fcf35318c33d7b2990471a6eebde34fd6b76584fd3447;
  0x8bbb1e5148e3d8f9f726ad57e44055e16286fa22b61ff29a73d323483e1c6000;
  0x757d7a6138ea2f40ae05fe2231299e8bf9bb884a1a38175454581b6f6b795623;
  0xe276ea69315c4d05799741def047b46426f121153c04a68c682fa980b9942bbf;
  0x9220b2c5da7d7299d3a56c3cec6067dd6d4e615c1a5970d615b60bc170cd1354;
  0x296e9275829403d1cef0ab48b53fd0f3fe4f6ba2ff0f6322d6a3922ae2f3f11e;
  0xa5a52ede09fbbfc3d07ed019dbff005e6d56769747b562748b6e279ee2e5462f;
  0xc6b264a8ee07e9543957bb53e3e5f42f2582bc27000dce1f827660ddaaef14f;
  0x754193eaff8fdcc1207f1038100faef8ad77e620635ce3f6bbb0f927adf87046;
  0xed8fcfe08f30a3ab0a407e5b523fea96195ff5289ac1a7c85dfad34c5f6d3949;
  0x511b473250700527c06eb7dffd00d192a9836d0e1ba94e06fda8b15ef47ed2d5;
  0x941571560ea8d9030edfc64f4dbe12ad7ab88410eab788b427623df9e652c2c1;
  0x8246e73b22470cb8d3917468b82d9b2ecffc2f723fd45bff978363b5bb2586d6;
  0x7659b3440a52d96e75046e8015410effe4922b7352f635f0cd8849b42eb959d;
  0xe6914b9cf3438c3def6677d394801c13ea87e0c0019a29504ede2e4549a0c66f;
  0x5859dc9a0a40f89547c8ca817f97d5e19b53d5cb46051fd9062ae1e6e13f45b;
  0x2aa4c01eee791db8da96cb7e451509b4c2be9f4efacb4766106cd41dbc9d3f0f;
  0x1fcdd42f25a495f23d170a6e4f0fe57bbeb2ca9df67c7e460cc3b72b3a71ae41;
  0x484154256cd9ff259067c0a53aff827b734204d2af89a9c2882ac51b6858b465;
  0x867de1819134519aaf77c89b00ceb55f6b6bc61fa330315662daf98d44647bb3;
  0x23cfb77d6abd32e5a7387384c92fba0220d43840276f4bdea750115c1b14a0ee;
  0x8e613d9b5f731c7a921453c7b39b36afb80444af4d8c5bc94114d5a8810d3908;
  0xeb2fefa91773d18c14eaf1d1582623a7efee05d36f666a6b98c343debbae8cb2;
  0x8d512cd314983c6935ad967208e3e3dba7818f0a947e818a0bdb6e1a3a145da0;
  0x6aaa712a7c4c36a443608b5baada5b5abf9760e836edfbbadae948c4c758dbb8;
  0x50e0c70162fce9a7d7d7bce332628947a05d75f5ed2830a97b684ae54bb70552;
  0x7facd8fb578d1c3d04dca4c897c59a0f565ce14bf5a6997d9eb64ff6ce78cdcb;
  0xb58be729cb9f8ff1b208a1e7c2cf8ed82291485a19735b0a95218cdf8e53a2a5;
  0xb7f7b6a61d7d4848181cedacf7f72faac40aefe4b6c620d5b765ec747ed2c59c;
  0xbc5c15ed818fbfc95cd062d223c4c48ebcaba14b933e7825f5216a70be084470;
  0x1c7c422daa1b1ea44b16e2c22d44966da0461de5168a4c25b5a90ee8e4d6677f;
  0xd966840f64389454fe0d2d523cbd9670d24adf506891415774851f975debb96a;
  0x468372857c8747408b6ded628b86b358f5448e629d7abf196676f409930e594e;
  0x6e213b873d4498e909d20ced417428e393d4ad13b07ee2a43891e41ff2fbc9c1;
  0x53400d4f6729923bca2adc5bc0d6686fa1326febe73d6eb22c19397f1e01cfd9;
  0x97ee64435da8b631e6972fa36e5e868c2d88498bcecaa835562523341f3e9a54;
  0xa0c44955a597df853b122f5cc7b820bc8ea8b659edcf5700833504a632658532;
  0x8623f5f650c1ee57c08881705df20d616a973dd14425344da66659d95580e6fd;
  0xf3c53a6af59ac7b13856aaba79b7399829a05e72377b6ecfabb4cc68ff589446;
  0x331b1283839ddcb46249a02dfa1634096330723f0ccf84512505af11feb4ee6a;
  0x1dd7ba99c75516cb2a2759db66f27275306f3785028d491b3c1634d5d577aeac;
  0xa2116221f06afd0cd5c4c0667e54b1f99e247d5eabb281c9e5af6f67111689f0;
  0xc301a74cd284e98966ef91e27f09b6bd417c53d1af1dd3f2d6e6c19a630dd204;
  0xc3a4ac378a9343577e8451591c08701e3b61d3573f2b6107090e4f589f4470a7;
  0x654de6bf95d373cc55f262ade0683973344064b644604a17ad4f08802faa20f7;
  0x2f7597319f18d06d5fd18e6d2d507fe96032bfac0cbe1d5a4a664996a348309;
  0x5e4dbe1acd6015985d9efc0e6d78d72f642a55f7c292df0eda536e22d4b4c3b4;
  0x9ea188e319e406ae365d0e8f583a7cae54eb52e597888e3dbe2ff3bbc335c3ed;
  0x970a5a85a2089961c621202c3a32ea10384bcad5bdac87b2eb7049c94f2b8cda;
  0x560e9da3790ea74a69fef13d38cf2be7510165c1e77fdf24c1fac1a177830fb2;
  0x404cee733681f4c83c0cb9cdc5179e5f0717c1325a6406268e5155d71a12f971;
  0xcebe6ff71a47d935b65678951ab39ec4e9d1bd88dbfbc987439545ce60bdbbfa;
  0x6ba31dd498bf4753d0041f56a9a4212ba4f3ff4bc752a9a64c083ab49889c247;
  0x99121ecb9842d59d0585fc63618a6d760b1f0e416549746f466fe5775f52eed3;
  0x1be06ee736f75e2deff27dfcc66845e8371939f15d4ccb8f0faaf73795a3387b;
  0x599fbeb3535e4eadf0de9531040dd16bb4832563b2acceba4053a747abc2efb5;
  0x68fd8162ab0ca465b13683a7ff64b1ed9dd6a2513ca9f831966b9a9b4292c743;
  0x9d9f0b50fe69dda52cd936f9875cf6896ebed89e09c1e9d88953c267b595e120;
  0xccf735dd0c54cd3a5699924101ae87742bd4d6cd5a95ef07857a2050410c9f32;
  0x9f800a4d5c1c30b92a9011f392b05a9e05a07ab959d628ae59da0231c4f50892;
  0xeb59c2c812869e931bd030ab27f9cd63c5feaf696f76564d962e207bebc45f0;
  0xca49c76ef723e5b5dc021b96118085476d7c354b3dc19446475c5f5d65e2ae2f;
  0x638a43b13958ed9d9b76feb554a4930ce586d30fca03862d4c3a51d1f81d5808;
  0x446f5ffa06dd833e4b3632c5db9cb33c30b9ee80e7203077e813081a34d5c716;
  0xc5d81d8889c784db35972aedf1483c5d858915929920c3841a125b8422313cad;
  0xedfdf25c028e5b6b79bb85472c5e2ca50606069e24e140ef589c6937aac24265;
  0x35dd4dca2d18067d2e835fbb579868bbd2f9741ad30df05123b929db02cf4f3;
  0xaf8d570dcf9ba0597f5f8910259ca2d3cd12c3886cc18c4f297426972da5331b;
  0x25dd0c4a9bef212ab500fce717ce055c51a50d3675260829b25d35b270a8d056;
  0xdd56a2b6824071616b098f505579b648f01c1f18e1885d9cd7342718cc4bf086;
  0xaac4f62466813c361154fb57005db5d21436b8cc9a37297007835e0af54b6a1c;
  0x1f06aacccc805942ff6fc2e9707fffb8647b449645033277df24ce257adc5bcf;
  0x46bc11eb95076ac45743ad9a37a840af162a610cb69cf10c8c3618ec3180b944;
  0xd31be2c7b234b0c9bdaaa5b6a6ac63bdee01a1ba123880b9b78c10ed3fb676cf;
  0x3aa7d69d2f5b507897852f551f4c8901571646642740537cc6d52f7d1ce2731c;
  0xeda68714b80f79bdefad0500c653af4bdd50e20c543055241c6071fad39195e8;
  0xc9653e81f6d1054d3fed67dba621c59344e2ba1008f66a570199968870ff1051;
  0xba37da3590155ed86b22b5ca685ba5fb956c641f0685ad08032da34bd8dcd660;
  0x55ca0e94d185bfb2eb3fd90cf5df7b83a829a1d4f7a1d08bacbb70cdb27a7195;
  0xe1cecd54609948cce42baa34ba328874f48285c89cde49d633338d0b05aa4683;
  0x987d98d98e57eb079f857bda044e841ae0f345e8e28fdc02cc7bf1231cda4eb4;
  0x40b08621e76d5ff026933a25e2cb85ec4268e54401ff42af419665d40f1db81e;
  0x2ec5e5edd8cdef06209e7f5751e830cee7bdd4157e2cc2f509df5ab3b70bf93b;
  0xd06550c3d7a1c75f3c0ac9a7f51e961ae1f0a90fb14c4e1f8366a01ea26a319b;
  0x30bb7bdb8840cd46a8f3f780d5958464a3978188627520e7b6c54db447be41f3;
  0xcf843b3d8a51992ed79cb7f53bfd2ff289f0452e1383070a3998bd5847cd88b2;
  0x517524017fbca5365d8419725221b193eaf1cfca2065b2cdc31f2e20bad26977;
  0x35a223d28ba7ec6c3881ae8a611b9281b6d1cba04b71ae2a350e0866e55f90d4;
  0xf4fd614ee4c58e531c58501de613428f88ae2b03eb107bdb6c3014361fcec49a;
  0xfbe1d2abb9773061faa4660f2fc32cf8aba52423ef4d37c800ccdfef9a7e7fcc;
  0xcaef716cba24dbddcf119636faa5265e7d2cd142e57634b22b1560c6422b8c3c;
  0x56af51c9ae935b287a9bf77ae50760c1b073f0c1f8ba682d2397f4945cc1c163;
  0xf9aff5a919ab794e4ec75b9ed15fef94b31c2e90ce58be9c0ba33ffd22a2f5ba;
  0xd523e9caa09738da2dc90632cc0caf73d2802b0185e9ce8bf7d7eee06dc39b81;
  0x791f02d4073163c3d722bb22464305b77a697c80181cee34a4dc6cfd70d0fa3d;
  0xb31311c371f3963d805000e56e76b814655bebd0870be5dd7c7f36a5bd400aff;
  0x54a6f32b2cc925e24b8fd7d5ab7cb9dc8c6babdecd41165c0c1650614432be83;
  0x9889265dafa6f9ad7c6888ca9be0b8a21bc5f0cebf0edfe5eca62a7859de484e;
  0xc2872dd056f0a175301e08a20a47d7be68649a0fb1d29d9f4258d6ba7ed0c9c5;
  0xf2b5a7521b940fe139331e9e938f338ec13abce8f0371aa8cdb2827bc59a6088;
  0x83e51e181f176f5441096cea767feeba006811d8ebc26870b267063351d2ad00;
  0x9f7b5d286746c1ddd778f390fba8cd8603d2b295d6a49cc08f15aee9490272a3;
  0xfb34be65b6ceb105e53af570401a9b40fafb43d4416f916979b7bd5c51a40030;
  0x9de7955e795f48cfcf1114200ab6a6b27d1d614e31026b82da5aaa3a337e2a32;
  0x810513252edc82c75033088d0c1651d9f5b60f0481b6fb0839ceeafcadc28a45;
  0xcfaca9062e752e5a179d0a4bd14ef4908bf2c6b3582acbe2b6d04f9fed349bac;
  0x2f6e7389460074b9a9c9e2a1406f8985ad8729be6a9c7290ec423eda05097715;
  0xa5692f2bfaf28f45b3fe83f6926493a07f32fec73d19a81dc04fcc62544b75c0;
  0x7222bcaa0d195be1b916ebc28835ca2203b30b22f1c50eb4f79611301b767361;
  0x8496f1544d8a4f49f882755384aacfd2e779b19852bd8a35229748f62f2a8a08;
  0x5acd4f983530aea893afee20b073c4ff753b5b6cb1e9a632ce078868ce71c0cf;
  0x15756898b2ca217bb1e1b3c79866a3a2cb0d99fc5b78fcb75589b074443a7812;
  0x995f2d918e1c98d744d04611225daed2393fd1990b4f4fc04bc62414ae63ae98;
  0xd43efa3fa0310a68bfad029a3119dd56503a46bcb4562479d847cb82485f92f6;
  0x7929b6f2c97318b92e4745c24f35d166a9f8c1d525fdc813a4680f717bf984f1;
  0xfb2283618629d46928bead88063ac023e6cd64c67e5ce0115cfc8a57f9105720;
  0xf58feeaff8ca5f8c996922e3c345e39cea130aa11d57f388f2ce96091df1daf;
  0xdbd0ecaecbfe51c9a7972a15299dc69d09c1650b0e46492db3c2e4b11875b085;
  0xa93847ff74382fa3c73c21a5d90070c9029f71f78741233887a548a716c000f7;
  0x868ebcffc4bc259e6ba40edcd4c070ed23a0a655c548fe10c19ff0fd1175a4e4;
  0x2e6f20a41a73dd7ed0149e88bd551b049e42a16eba9142a7e9bd48c832c82f37;
  0xa7807ed65e7524e3ae380f00190e935853be4954ba735d417e30298abe4e94c6;
  0x67a374b3fc8f9bf1bebcb33b8f9bdcd5d9729bc55d603c20cd48d233862f4513;
  0xfbb24af60b0bcf04d97773fea9f1291f8f7ee28b140c0cac922c79266e411d15;
  0x823760b37bba4c1d55905887e38480bf6c99af2b411b54b3b9267782838601e;
  0xca546f54acecdcdb7a154f208b8cbf047eea9b4aeef403c3f4a1fd45e31ee555;
  0x727f31e190be8e930badaad5eb790c0b545510698a8aaeeed39f58bd4c9a6438;
  0x8309cd82cf36ea0f166c7a756a8d44d0fa86abab1ee23f3f631860c58b2fb0de;
  0x444354f2f02f86568fb792a1ed019a4b074661991ea3ed31190e3938a51fc8bd;
  0x27616f2d8c0c97aae6060c6fafbcd1190851d13e747fe57a744733a975eb124c;
  0x32d789700f2c803d59302d982cd0be2c0f735c0021a760ff7e8a100d01398978;
  0xe3e193528ab26553c73b127ea8d477cd5644c4f90ebb685ad106ea1c0f6a95ac;
  0x82f2adc7533b5bf833cd39969c206660dbd7c7818655f95fc24fa45798229cb3;
  0x6fdc7551cda500940b58f7df7a601d041b5173f2cac4e73f3d9ed8f03262ba8c;
  0x9d56cadb09d4fc15d70d2774c0029d714575dc4ed12446ae93e8dc3dc5315b01;
  0xa5fce21fb83cae4ca73109b690fc9a1e431d7f52c75c5202a1f21f91dea620b8;
  0xf7aad1abaa4b41c0b28add068b932cbeceaea1e6d77e1b06832bcc83db56f43f;
  0x9e4c571255c4ac7833d427c5819e4d8b11e652c2ebc90eaad0383d4cab736e80;
  0x74fcc8ee70d54fdcd95fd7b7a69d1afca79928f518a28c1d42ada0e40a01a573;
  0x59daee63f8a2f63d708174c85194357d6632bd98ea15e1ad0ad26baf28eb5b13;
  0xa498b157f32225a3b0488c26ae32db41633a0fac851a461528e448f92cb7176b;
  0x7923dfd4fe449b9e028c33963fc645ce4df36aa9a1e25c591d97e336473667f;
  0xbb1fda9186a2b3166e0d489f6c17ce36e66fbf7110a3ffc387695608f33ab183;
  0xc39a2a7953e9780771f727554a10beb0bf823a2ff9ec7794f42dacdfdfc76bbf;
  0xbdd2620287aeeaa58d702f0d45499e56363d2d4daa19e8c8a4d7ad8cd3c300dd;
  0x986c8963f978b26df4030bf0f3e9ccb19ae008f0c1754389a801b5299c0d7c32;
  0xfb55cca7e24a7fc81612634f5111f2a10047123be5b6745aa8472c5e030a5d5d;
  0x567b75bcab4efe36252427e68c0db368505facac9c4191145c23ab586d320e69;
  0x8804368fe1444f4b3b96180b50dfe38c7a0219e00b7611de33367275a9ed865b;
  0x750abd6ec3c8c1fde598ff3f12281b882a9f024867ba4d3c88bb6c3c83cecec6;
  0x2679cb08bb3b48eb6d2951ae99a7bec7da433a1fec9d6cfd209abcfe06ea63e8;
  0x21874646fd9752fdb20e0568a77fc0f0cddc2b1472e4b791aa69774f819db8e9;
  0x98f35c46c293eacda1260949d75cea5c05a9a358bd548a65e67f26c8397a32cf;
  0xa8ac8b173ef4f192f3d7ae618fac80930d812016ced24572f8216447bd29268c;
  0xbb65fac95606a8025c4caf736b6e9d9dc31b11c6be89450e4da2bacfff304d46;
  0x360e8205a11eb82e251c6b931c5aadbd3b08a109e8fe2053e2aab70e8eedfca6;
  0xcf851b76f100632dfac2e7ed886ed068a39e1c649757451c68fd47374fb4cb4c;
  0xc5d6d67bae59791ee1da2b9706fd86bb930411e956a64dbdb410688cd5f431cb;
  0xaf997bafe6c301825b69525928bf658f5979272baf430cc7aed9bbd2dc4359c2;
  0x8628bf64a9b00e91fbfc26e8dc62b99053a764de64d3695afb53852439770dfb;
  0x656c9b00d3beef0bbdf5c17ef1e29c14b8a8ba41613343cc9d13b86d4ee11ff1;
  0xf43a228ab8aca285d4e009822df5096e7685225adc8065bf6a6c0325f35c3cc5;
  0x22c3364044982b9b4fc0df14ca9c5eb90168147fe94d1d2cfa62fae7d889b9b0;
  0x4df48e0585ec10d3fbf8e50f10a7cb26565d50488e256ae897404b32a586e168;
  0x37082e6cce8e6b7a85e7073b71cbb6308d7be07d784fdd1c30ca0c3bfce55dc6;
  0x3c6037c6646fd7b49ff31cb4fa0cfb9228bfdf7bd5602e04e2a94b36fabe2df5;
  0x6c0fe62367bc0e039c44f7f1ad50874d685fa07bfd796af953740060a51356f;
  0xf17a3cf3e43ad22a72c6e0f974998252b05a0ef5dcca3bcd4517d018221770cc;
  0x5cc57c878d48827b6c9e8f5df0ef0e896662470e7d742229af4ff6d57764b06a].
Definition inv_k1 : list Z := [
  0xc799fc195385aba339783c09bc6865b5183c12598a67954193fb2a20606254e;
  0x9307bf43ebe7f66f90895a45f9b0a1152c4133e18ee990726a8f565a7121788a;
  0xb2cbce1fa40b11925cd6e1def36d7b20bab213650ae294d27c06fbae2f6b3e2e;
  0xcc68eabe2ce75e3550a35c4c886ef86005a8433de26bd58b25a9eae9681e6851;
  0xa9b608932667ca41f36b35700b5e125814dad19ca04e149e64ffc0f035589022;
  0x8797a1ea5659ab5ce1e6247ea2a4c4f6dd207138eca479392b64022b29e8e923;
  0x75017f6e7c18ec50788af2dd0fe82ccafcdaaf4e537ab3b44e1648179594a3b5;
  0x98c53a19d663f97139a1fc3a83f307e44158d3679e1ed656f7c21f8166aad56f;
  0xf19bac4d0f8a65b044f73c593325b8c7c7b072843de269e070a94398f5500323;
  0xd11863797d478f5d7836bc490c85b78d10e11d2258fb910ce5bcc104a9432af;
  0x6e7161b9e0c05df5d0ad7b21ba5d6d8a6078b3eece1bcae43762c2cc364fe744;
  0x9faf1ceec483c9f563be572805fbe077955e5155a4c34ca7ce74fb58509b2351;
  0xf34143aa84c263fd711ca7222513f0256d6e7d671cc3a60e67fbfa5172ab249a;
  0xf78f627829390f78e02192efcb2eb94e2e6c04c1491f87833178c0baf21b026d;
  0xdddff23ff3fa9084f195eb9d7fe952602af355afb8cfa6d483d5b1a4744aff38;
  0xd5fa71c785135beac527fa64df175a986f8df0cb4b3d6bda3b623a1bcb278d98;
  0x8b36b877d068f9707b2e07829536a8f7ee8b50cf433f890a090022f79b08fb74;
  0xf497620ee0883f1ef2f49425041dfb4ec7b7a2616732d573685fd1134d0ffee4;
  0x7273dcd2ddc227293a75a0c0a29f01675d1e8e12833dbc7f5cbceed541652e70;
  0x6ae9a19920d29b01b3ed1f43c320e27ada04267ca177b40d756a32a1d20bfdf3;
  0xa14d4c8e73e242e23e3b0dd5f426c5820155f841af30ca449c2cb379066fc44f;
  0xefc3e1408e29efcdf5294bc7fcb9144b2a17b9cddefef5f3b8dd92db6edcf5b2;
  0xbe2d9679010becb36e758e1032956fff0fb0ee51ec25a45ad6108a131286a0ed;
  0xb3f02970e86c676c11196e2541eb47bb309688a23d87685af1785b154b28da22;
  0xbc4c10e59b3d22652f310e8e4d297932fdd28a540d7b291d35379cf5dc94d615;
  0xbff52a6820be82d07944f9b10e210b8a53f5d2082ed2b28f5dc996e0fae1cad3;
  0xc5f669e4641dc0c3a8d262789a82d51f3a4361fb4e1b65d63fbad3bf4c9fdd92;
  0x86ac84e9d0b8f82dce628b1ceb22d46193a251d308cf1e6b7ad3131742870575;
  0xd2fa38280578e409e014bf19a31254525f00f914b709ddc0c72c979454277c2e;
  0xf3adf30d1e0ec345050b1c90230a709133b730ee6e4d0ae0e94c3c55535cfd84;
  0xf449dc7b864d2269e521714277094c1d51f995d4cb3324496e5d1828134f85fc;
  0xdd7134c7a12833e9a73813e5d26f81970e3e7ff0b28995e0ccc681642ed64cdd;
  0xf7e5100b74170b0b606c8fbfc539416c17f3248845ebe606ab952ca9a0086b59;
  0x5b3e7675125c67fb15b137e48e39f8622b698cadada7e0234d42dc612681c7a0;
  0x4050fefefbbcee26e7d5cca1273326f01f002be038f412bde3c26786aacfd24b;
  0x93ff2ea5dbaef147a8addbfcd4c106d1a14fa820891bf8d7e16680626cef5a99;
  0xc84b21b1a357a236007ef081fb34b5d1579ee0539369b285160add187963c8fe;
  0x86fb211e0379319d3f6a73ae7ad56badbac98a5537cd5cedacf00f872b4ca7ab;
  0xdffc24bb917d082bd79bd57e866f221e2eedf5954957298f501bf3ff5bc0c639;
  0xb42d083c0d39152ce2fed599b0b18d923b17f35727056257b3f63057a3fbaadc;
  0x1297b737a3afed68109bdd948dfc740310fdb2e5837fd4c908b8744e32a5dc9c;
  0x8c022d1538820fce03454b4101b753b607a7e8518b6db472e5d446b05d7e4abc;
  0xe3afc54f64466193f3c5569df56d52b6b34a07db20a18ef86a2401b3c3702263;
  0x844eadd8a1ec462b7cbcbad8127f0cabf73cf209b95ff4ea1d2da03f83e9427;
  0x57a0914abc77d3ba91392c1db1e2dd78e8d8bd61bcc80d587f0672a775c45ba1;
  0xa12eada794070e9370bd8b601ad9bc73bbc3b87a8c972a5052714bb391b322a6;
  0xb0b11953c957749412efc45de6a277073806248e990419e141d98c3468cf3364;
  0x59b38282e30a5769d2af049fe7e631ed197e02bcda0397ac3d8e05e2acd608f0;
  0x6d2bd7cbad1547e6cad9bf433d97dc2457d9b92d434babfb026e472991289f8a;
  0xa07facd0e99eb54946ce24b52773dcccb173c930d1f060f47c158679a72a37be;
  0xbd8a2d606376a6b0343e7c72b433e670e2657fa225414c297788d2715a3f71ff;
  0x8043eaf176689179b03592b6072612861610a49a41f7e85010dc651cd82138cc;
  0xbc579dd07f82fca51f4af4f07530f43b80547be33f92e798ca86debb62b448b6;
  0x6deb729dfad73ae6d0ed74a2045df7efe62831bc0ef3ed392842307cb9280e7b;
  0x30d1ef59a856077ffc2da5403f6c087524e1923cc99dff9bab7d00b92a83d451;
  0x8af26e566643fba3f7551d4ce43a1214eca7ef50bfb4d9f1cf9fac1cd2ee6d59;
  0x2982e1a012a1e8b78356c033bf75af10c508846151c9746747cdbda0328f48a7;
  0x196dc69b711f666e58f83a40bc7100e146483f625fdb1a79432b409fa447ecc0;
  0xc74ffa78c19e1671202db4a5ce3bebe305215bbd1a88626c4c1faea0f38c07ec;
  0xb68bec15ef7c28b162082baa0f5e926e7d80f61da546e6460092e319a085759d;
  0xfd464771ee24f17e56d670d94d4159ebfb72ce51c887c82d0f698f0eb410ac6e;
  0x61041af036f2c303d78c028bb1392a87e144610d3b73b53b9c2ef945f5a6b3c3;
  0x183e160a8f19d195cb5c28ae020facd8c9f316c890dd0e0f08fa1606ed74f688;
  0x44114961cef7eefe3e5bd4063fb4fd121a3b12020f591b2a31d35128fbf3f047;
  0xba6d7a3aa24a97b19ccc1307af43a6c8e1db8f78b40a07a50624ced2dcd6a719;
  0x6e75c059f36fb09f9c560ec5b1a94b985f765185bef20ba0c281fd278ccabedc;
  0x7e148f796a1f672b1620f82aafc54105123885c3eca9d034b5bf3961536e57d2;
  0x2490592eb3ac5c880581b2a9b0eb57fe8d485b565deb70fc9f12cc8e7dfc8b7d;
  0x5714cf8ee59f434fdece06a643358977b5962db07d3d8d39927e246232e5fc1e;
  0xc399edf0c84f69c869e6fd11148f13033831eb8c8e6a05f27f43e7e3eca17d22;
  0xb675ec0381ad84388a12c4e02a02b86985cf7dea6677fb224a464b32f4d9c559;
  0x748d424a9b4a9367b37fa8ed8e017708f3390dd5d81dc9d5ff95c4452d44098f;
  0x1025303e96ffa05fe0653b60709e48fe4442f4776f479379292e43a665ffb50c;
  0x85b529a9bcf4ee31ab8feeb24c731320c6b22521ab1f961497c7f0f2c1558f77;
  0x92adc86e50c2778740012a457866b0d45946a5943f0c96b6c21d198d4333ccc7;
  0x4eedfa237e7210186a474ea5721ec72cfd67cd645f8f1ea7aa750174cfc0b4c2;
  0x36ae6f18cb9ed3237476244f8349f919b18876d240e6497d1cbff9deab7bcbb8;
  0x4c50639c521884520c5442b3280b921dcda37b46085e00a548abd5e423bc1a9b;
  0x4953b5a683d7019eae3456f968f0e5390e6955ff81e0c8b245f2bec65eb9c310;
  0x90dcfe1403afda73ecac8da27e394648fe0431347763a78bd54f2fe837de8d1a;
  0x586715bd96820f7b0d8189abb0ecd96835b8f75131f312b59d72d6d24e043645;
  0xfbe4867b6c94df8bbdc3b4b4be55b219841e61d9550c5c99c15a59cc6791abb9;
  0x36c42e58a35b7824968481cf4e03388b6b4e8aba1bdfcac6c47a2091c8e86bf;
  0x36bdafe592834435c8ff34de922ddecb21acfc106631644bf1a0d8cc7ccfdfe6;
  0x376ce4dd911edd0fab820b3c2ad0ec163006db40973e3cb2db2e76c744d1ed83;
  0x9ae967b643c276ff33b11f418db250adc623c4a4ad14effade9dbc278bddb522;
  0x95e057eafbe9d961044e41d33c63e4f88c5f5cc8cbc751ebf1cd8554884f2d;
  0x5a9e4312334b042020ba3b11abb893f0525e6ca2bd048857ac242c97d957955a;
  0xefbdf3badae3a3f457ae1dff04e32e565d79abc076042d0ecc320227a3c060e9;
  0x552e7a07eed3b1f315a49113dbf271f00a51a62d84176a3e43ee0afa48bef6a;
  0x5741999714facf4cc891fa9aea530f8c21cf96a5f3074c44925d2ef0ad2915b5;
  0x319e6d9360a8c1cd6afad7780e8c4857f31d24644406f1b522b3f46f49065df3;
  0xd5829128cad085b77cf3694bb250fdc8f00ad090d8c42cef65ca33e6b222116d;
  0xd5a4cc703bc91a69c833a1ab0ea21122b99e5a1d1cd0f63a887f8fd33bc977d2;
  0x2f5b5140331d4ed7db8f4473f662ec50becc2850a8b8cc7f5b39660224d5ead9;
  0x4e2ba3c7650dd9d588adffab0f6194fac388c033dc59991240f3053a28a3fa72;
  0x3aaf9a12871bc9ddf689fcb5659d81766952d660d4ade9a1906596abb7b0b2d8;
  0x85789d99ece1048e89ec528dedec98645cc6bf82b6043a7b89d65c90981a4d04;
  0xee1cba06002b74120a8cddd29dc3589dc860966004a821fcbd68db1e7e917cb9;
  0xcb6eaa03ffdf7dcac91ab43786d024a54af77f5ce255f375fb876e8853a9440f;
  0x7677d6c643347d1896dbb297e9ce672d1552042f47571502210c97e0bf7eabe7;
  0xacf80ce0b6cb5666c35a8310633f750b8fc88e226628e436f08665590e684f42;
  0x13b2b15e5fefba7eaa16ffa00c33d54f0161fcac4c22b570bf23f13964b77cd;
  0x1ac98556e64981cf65af2aaf3e4a1338d185f993fe6496f8195d73fb5af234c8;
  0xca17be2e9ec9aaa82673c5d40a94bbf465c1366e6251132522ba87f8b997ccd0;
  0x4f902d17a655563d5ac8f131ff22402589c04129cf6c6228114493f674194010;
  0x71169abc3ecc0770d57df7b77e5c19ea6b0daa193456e631270a85018a71c6e1;
  0xe218cec308445622825078518427579b317246285cdd4cdcb5d4ba1e95f197ab;
  0x83200a6c9cf100bcfc4ca0017d10737804df1af732df5f8f36a49d80290e2f6;
  0x212edba157b4746110b7cbb308f6d6b13d5f974cb69be09f421c6f1083dbc1e;
  0x37ff15e6b616d0a1cf729de5f7081ec332969e64f1d8cfe4ba541fd78aa0d359;
  0x13845decbd9d698322bd36682a3a1a72085bb2bcc88119844844f99bb8c2e363;
  0xb36b201f2b3e18ab1fd32b63a8385c48e9d8058ce3db271dfebad9c2ffaf64ba;
  0x37c4b5e3649efcda7d422634cf507e70d18e7c97d7b763fd74f63827565091ef;
  0x2e127fc9cb1299ecbe8fcd353d71e41739308f994ee44b03558e43e19cee6705;
  0x5c150a4b0778ca52ce6033b6100f7af6cab7efe7909e6b434621907d0e07ea89;
  0x448f05a25d03a258746bda43ca39a3bcbbab124a96e286c17a6074d5fdb11268;
  0x64ca5e1d9496522facbd9886f4d6b44f67b537c6bc3320001eb7a5823944d0ef;
  0xd5d21ed4120572b92e0f7d3206831e08dc47e7acf67e5d6ddb0e0ec27a60b14f;
  0xdd5d613cd47f1fff7c93a2d33a7dc1476caba06a47bef62ab0b1c3f1e3b74be8;
  0x95683849420eb4dc99ce97b1391af753d02144de647cc604a9b3c68e8ed8f50d;
  0x9cad3332122d654e23b47aab300754023f8c7f659211bd86d09a9fcf28593c79;
  0xc622e7c4cb31b817c21e8e6890c81c74b173db39c7f129b8c5f205d74be07d9d;
  0x35307174cc7090a210877a0fe9c652827f68083d2fb921db0a4f300d5f784458;
  0xce230685fe984b9cd29943ff275c4da76f8b4b667f2efe04ae91627565d66425;
  0xa0ecbf86b276bc43f19b8ec26a74d30e1af51e3e89d19aa13e44d23c8a909751;
  0x6134b92c41e0779bd36143b6a059e09d680dc757b38be5e6c04ead3dfa95693c;
  0x5a7a019e1ef3dba548178be8502be6ed009e49b7cedb7318ec4a14bf735193a3;
  0xc9b0c91768ee797f802c6fb56973f868ef60ba2ff6531604c918f30bec1647d6;
  0x58c181c7b8796036604fdf02c1cbe3f9d0c2e64a9adb3e04f9157cce8917e827;
  0x5973d7152c777a399d48bab534cee19e94de7aa33e0693bb8e2a9dbad517b191;
  0x28b2d58b7f7ea1583da8646be0f4181325e99852132f557ad34be2b861860181;
  0x242a0a0c0bc955b391a7036abe3c575f50449b54159f526219423b327989297f;
  0xb0858813587464454032a144326be03b21bc9697888da44fc8036b040228ca1a;
  0x8b0bb5dea42f3c9db1cd80048de44f39511a95ff502fa5cd6f195fc7723adab6;
  0xba5668a209416d34711e855616e9fd7cca3b58de7bf8f343b4772d4c2e78cb2e;
  0xdb1e6062fa020aa25103d4bfb598c2d371696c88e4ef2baf4dc1647a95d513e0;
  0xa9f25a3fd35f3c6541bc8fc0f8f099e5941323a8f35a398dec0bb763e3aa8373;
  0x3600707423829b7e1654bdab0c64b8e6acf9bce813149ec82ff05e199ad1874f;
  0x4c727daad329def2c6ee7f0b8dea7cc08b29759f66ddfabbc3fc879efa1bd598;
  0xc84918ff1520339b66ec1a999b2e5cff787ed696da849e5275ac89055f31ae06;
  0xd3d55d01eaaa541154412fa4dd86c4ea377d3ec93bef22bc5d6521980137f571;
  0xca450d54ccd659decd56f0a599c84c8354bbf9b5b6788dbdbdf35248cbc1df71;
  0x5afef1a17a9eb008d5d9e2508011907d09d77512e74b78eb8a917f78f6108d5d;
  0xd4e2ff4e45fcfa08f47abb5f1a19bbf94c8b9a8761633ed59baf228802d188c4;
  0x9899232e8d058aff0f10ac8b4c829bb0839c13cfa97e57fd926f4563ec252d8;
  0xb1335c99543d7fdf105020682c35db1f7a93106cfec833e1958c5f2b42227f8e;
  0xa6525aa71056cbf29d5e1ad77f07d3c27d015ad573ab0ab0d5db93d188ba0a77;
  0x7d6ae8f192de85ab59a4cf5d8b44ca6feb9c43dc5a2854b6fc9a4abaad82f6a9;
  0x343c0cb3098bb2b8373c3f2fc607f7b17716d9812e52ded16abb3d1e1e74bc1;
  0x38e692f98247a50d03dcdc3f22c824bd24fee1617b85aa5078c71d2ce206bedb;
  0x7aafc3984450dc56113aadf4022b97b6c566b84265ad80cb69da465cb21e59d;
  0xc0eec3591a7b66527207f632bb1f72d6d51a04d9d3a81223f1895fda3a3f0808;
  0xf558c1487a6341f15325153e1c2a29c1ed31cc68ca68f3a4eeeff7e3f5adb871;
  0x2bf3d7902fd4acaec389b7105446b4253427c9bca56f7f614ccec24167766d9b;
  0xc178a8c699843408f26f7d04a676bef9b1b2648d988e67d12469c55e22dbdc89;
  0xa5304e509411ac74ac35d6dbe1f63822e5571385a1068cba2de6f8812cbb4266;
  0xe3772b96ccac65ffb76a0930f698dc71bc702b8671df3a715d81ebe0bf31dedb;
  0x9ac313473900e1b47f3ce51051275a4f10082284927d0722778262555f022854;
  0xd4b3e04363bc5958c122d3427ccbbf7fb5387f1215d825036be3bcf5595a2e77;
  0x260d5eb4b39f2e6f56bdcc3d1260e0697482d4e57e09acdeecfb18d7831c9ed3;
  0xdd55f06a38626284c01b94164af590c69493d5bdb94df85ce2d8a1f4fea4b610;
  0x63556a33b901585fc89f923a0a034bdbb75dda3ae46b8efe8167dbcb8109ba40;
  0x190356427e96ee770637a98a70fcec8c57bbdfb4b136d75f842714c485f8efb5;
  0x8085a3d4d1c4429711d41e9f6d1c540cac300b21c9fbc30686b8f9d2ff29e371;
  0xba169ad1ea85ab4167291d9a1407643d5663f261446ffc8be2c3dbc654b8e515;
  0xb88ea411a6fa8cf906ba6e36df846c6a83cb02aeb988c4041b87bc2bd8aa13cf;
  0xdc8f83d0a9b3131c1a385fa444ecaf2f120199c5a1bb8576c5b51d23fd3b0884;
  0xf8cabee7e0a9bef4e4577756090d7c6aa8d90d190d8f3b01ce7fea811d02faac;
  0x7f087c041e972d74101d648ca1dfcb658cb792667e647507b83097b96519479c;
  0x46125fa5e2ffb8d09217bfa6c2cd524409f674a43478ec6065f378839b1cb9ab;
  0x3d4c32629335cec492e858887bf2ddddd1235b580a67d3d8970d68e2864fce9;
  0x59fae5de0d5d7a2d90759d187b7ee0899f17b2306cd82ff8c7dd9ea8d0fb382d;
  0x50ca1feef734aaa00472c8fd137fd9b0c6ee643c41f2075f4e891867a566d1ca;
  0xab30a63f4d6443f384c5e125cd5339fda1da88f409ea0638e70afc2f7239627d;
  0x157f4547e795017bbd06e8e070eaf1b774a1c8c990baacc1ead333e7a967fd01;
  0x3da6d3dd6d57fd6aaa9abe1093b7fefe8e0ee8b5524cfab8c38975ca0b0b5db2;
  0x9aec8d87ce11147c6e0d673fca2a7e7376cec612bdc57dd344ff67242de5d21a;
  0x42c314da4525f0e15a24d731195025f9cce0c69520337b1e30ad66f6d76274ec;
  0x3e624e3b979e1946f0b66d1e839179a385bac3b6d06a83010f2f996e0e6eae5b;
  0x2fad7164919b77c1981d1ebd7c91e652bae0e353648cc43d6f34570bc9ce4bdf;
  0xcb14e16b902dd4f883924824f756a9b11e32a80093805048be4ff22ae0055cdd;
  0xc963eba91e4182eb0de256b431a3c6840e7f74f0180b100956b6fb2d3df9127c;
  0x5830ed849f0ef48f5f7a5dfd3b0129a788519aba1572836dbdbe334f4c02325e;
  0x9b72cb14bd4c6170ad21454709c1e899f56dfb11dc745cca1298ff1c8507ba91;
  0xa053551d1a4f7b6cf32561d9fa58e7e14a6effe58c695eb1222c3353411f60;
  0xe7933cc63562b7dd03979673f81c82ad506558a4456f48460b84cc6961ceebaa;
  0x7b24fe9a43277932c91b5277b104f1c8899d29a540cf54c4ce2760f0e67ae96d;
  0x446b7733d0371a287e60296c6c49a444176b93f81375bc8272dd85825cdda31f;
  0x184c15fbd1205446b8c273089f377b40193ff9520e7f9a01a8966b979f234f5d;
  0x8c2605153797a8e2ef945da28f4d6693b179ec6ae5debb7a6617cf2795237afd;
  0xba3bb1d712b209fb03f594434c3a4ba17a83b3989e15f4332beaca8277cdbc5b;
  0x3f982482e5f06d8899373f7d6de3e944220033d5df4de24312f435d8e2eb8c16;
  0xf65a0412ffc10bedb2f30a5f2a8c6e70c8c082f2c7284a0cffcc5154115527ce;
  0x9ae63385256d91c28fbaefdfc9cd77e47bdf0d6e87b1745cdda1a29394ea066b;
  0x7b8ef3bae6e0658aa46822b030ddd8bd80556722d71339115e1db33a13575f48;
  0xe420a3fd1e8e1f0953adae171c94d317f45dc2dfebb0b468c4c8348cca5d4feb;
  0x69746e3882086aec1f4f1241e7d812fb3ac7ccb90b0511812ad6023b217f8ce3;
  0x74f214de7772aa2555cf41622eb3c2879a936a44e0a2137e01a0df4eacc4e126;
  0x2ff49cce55fab01cd92074c740dd818755203dc9424e2e309ec06ae4c4431363;
  0xb21e8d811f925a50b437738eaf2eddbcbff1139e165e03310a8bf027c60b0d8d;
  0x727431ee3cba7388b0d1c12721d37042c55cd192ee25668e0fefef4a1c2f00d7;
  0xf0ca42959a049e9a00a3feb747fb8441e3c520ce3a7836bbfe21692dbf40d41d;
  0x918f8b5d842880f3d4c87dc6d312c4f55007d7efe869afd0691214f8457d32da;
  0x42c895c0ba26ee625e298fc04fb04400fa0ea6fc366ef5452d21423337416d7f;
  0x611efa8484908282485cfb4d7c775c12046525fb489a8fdf22258424b9261055;
  0xa4d6668d0b621b52791c92783ea578772813bfa4f3cfdf866fdc59dc76e2f2c8;
  0x184dcdf4940f2c2ec4f237dce6c59a263e37741e0fd0e69d561dcb23247b26ee;
  0xf10f7ed2c6d4ebf7a685fe1c236bf26e29cf5a2a93bce71ad062d514f1695d21;
  0xe05bf6212b677a204774b56a407f09611a1a181205ad624c46e9b96cc43575d3;
  0x300e70d36a722f07ba64c972b5a064e828508ed2f4835d73f1a5ef77227e0c06;
  0x1b87ae2fabc27ab1d0ea3ed575a6b048bfe7904c4a40f0f3d3a5d96fe278d290;
  0x41e0be49d3a3aa046a0493b484c4539639d52cea9916149a1df86641bee428db;
  0xd0e1fd6aee95b1ab7072fd3fc7fa54e536829563f637c53aabcca9effb9a7594;
  0xc12efbf426d82ac1e47520e9454105c319141660c39cf2b5ab7db70c0f39f139;
  0xaf8b37e4925916f39986fe2cf3104078d2d09136d8eca8f7f9d0dee907bf6582;
  0x5a575a25574bbe61ede173d3b3e24a1dcb35d2ec2ea9ce7e531f80052a477285;
  0x4eab65ba0494de730f35e344eb5135a990fc9631f5444e7c8fe88a4823f7c099;
  0x4ecaeaeb8414cd39fcc5be7b2ef6da0cf6ba997130a92e405417a7a6d0230fb8;
  0x37b862f77f170ba2736b38866ef0cace49277555db00080f58212f0f661a5ae0;
  0xaf55d762427f254bfb55247ee321908e5e1143af4975abe2412a22fe110dc633;
  0x89328b96f53fb9dda365b0a7d75becda8cc68a20463ba7d5a4e53027b3cc6ce;
  0xac6c215773e3cce65ab2b9dbec24a3526572ef2ac3c11e093ba9c238575588c8;
  0xd1628fe1d6dbc037887b32840aad93927c61f2c37108037675009720cc0f83d8;
  0xd26b3fdd517e504d2d59f3d3a7efc315d94bb9fb6d0eca07145fb79dccd95a0f;
  0x71999e8a31264dd9a67a5bdbca3822825426dd09353437cde0477e5a516e305d;
  0xf5eb969c868e6ea2d9fbdb3b06c05b75b0a8c8c0dfc306c3c8838a9f057cbbdf;
  0x3fb781468377c1bbc1ae7a5c9337554b18978fec0268a93183734420cca44ea0;
  0xa8fc6502b2642aaedf562ea2a8158e3eb39d47e87427361fa5edb2d05ed3d145;
  0xea8cd98a9c567469c60574295dd9e0afac5b94e2d1e1102f8ae460b674902922;
  0xd183122c090bf8c8397c769b7cf0084444c73911a84af80489c305503767f6dc;
  0x8c41e3b04f8b2d3437a3380916748ff09212b459ad3d0cbcd65489259488c305;
  0x545665dc219ce8b659ab426d1bd4dea350b8053b4766a36f77f8c4e6c394bbb7;
  0x87f6c430c1e633f9b8e11d1567a1b40c12e60d2e6787e661728f1f77aeb91497;
  0x54ff8af65008c18a088347a55ffb83e7d1c8980288927ad1a31d0e01fac4162e;
  0x57cbaffdde24e400ff0540fe3183306269b7ee4bd5fea903297906c1d464fe20;
  0x5d7d518526faebc8ce3f6e2aa2e954a26e2f5005c70e748fa2ed19628a015cee;
  0xe0afda43e933d30a443441601894e7f034377e2ec79983d08f1241459635b62e;
  0x80ccb76c12b6c2853b41e829789ec3e3ef6aa25226e73485ea2a37b31204014;
  0x26b94f937287c07cba801737c2a463406f1ffe1da9df3b0947c29266f8870cf4;
  0x946829fb5f8c2937855b28cbc10f05be5459a1076801c7a1fd1d40df9b22f5dc;
  0x844723940a859069e65f6498bdb22aa7b549ed78f6d921354efd193d20b6c85f;
  0xb700228826131fafbb73382b57521b5abd80641b2bc82ec1407546cf43d6304d;
  0x9dc3dd6ec9cd9c982943556141aeb58d10ae709ed2c67490dc0a8d0456782393;
  0x792dda3895ecd62ec4328a93ece080921ac8f999265272378ba500a712f45cbe;
  0xddb521449f8d66f8b27e2e52602b7f014abafb94938d8eb56ae5661dc73a058b;
  0xb1ba0ec80e27cc83281a5e1ebcd5c9b0d8f1fa05778d94f5f6da248ab3ae725a;
  0x2dede0c24e7f58327df0ce5d1d91c67ed0de0674ffdc629f5e5d82dad9945334;
  0x7bd0deacc44cac6c87bc825ad0fc58b3504bca0834f1855e0aa3d97ffe6feef7;
  0x8f39a72fd4df5bdb318c288352699f9aa3dd68438cea8208066f99ef312fc9a2;
  0x95b476c2c48952d338a91583b8c10c6e4a807eef62bd5b0a4df774717a54f9e0;
  0x83a600bfa2b3e883f508927e94f7285cf74985ad33a483bccd6a4186ab70e722;
  0x628c15c726cad9d0d9d35c9d362d75b815b9b96e66a4b07fdb7b65312ecc51b2;
  0x6aeee0a9ab61d2f7dc8715ca1ac877593482bff3daab7906a0a19e5801825983;
  0x112630bac5a5d4e954b1cdfe7299995800b16803be23c7ef8a2283c48a70bc1;
  0x59379d6ad953c614018208b93c7bb84017ea0e3d9ce0f98b0eb3547f10305b76;
  0xbc984a923e72a2a752a7d56dda610de50b7c38ed0b480ca97761d9ab274e5c20].
(** every listed inverse is right, and has too many or too few digits or is excepted *)
Fixpoint check (n : Z) (except : list Z) (N A : Z) (l : list Z) : bool :=
  match l with
  | [] => true
  | v :: r => ((v * (A - 1)) mod n =? 1) && ((0 <=? v) && (v <? n)) && (existsb (Z.eqb v) except || (2 ^ (1076 - N) <=? v) || (v <? 2 ^ (1074 - N))) && check n except (N + 1) ((2 * A) mod n) r
  end.
Lemma check_ok n except : 1 < n -> forall l N A, 0 <= N -> A = 2 ^ N mod n -> check n except N A l = true ->
  forall i, 0 <= i < Z.of_nat (length l) -> exists v, 0 <= v < n /\ cong n (v * (2 ^ (N + i) - 1)) 1 /\ (In v except \/ 2 ^ (1076 - (N + i)) <= v \/ v < 2 ^ (1074 - (N + i))).
Proof.
  intros Hn. induction l as [|v r IH]; intros N A N0 EA H i I; [cbn [length] in I; lia|]. cbn [check] in H. apply andb_prop in H. destruct H as [H H3]. apply andb_prop in H. destruct H as [H1 H2]. apply andb_prop in H1. destruct H1 as [H1 H0]. assert (V0 : 0 <= v < n) by lia.
  destruct (Z.eq_dec i 0) as [->|Ni].
  - rewrite Z.add_0_r. exists v. split; [exact V0|]. split.
    + apply Z.eqb_eq in H1. apply cong_iff; [lia|]. rewrite <- H1 at 2. rewrite Z.mod_mod by lia. apply cong_iff; [lia|]. apply cong_mul; [reflexivity|]. apply cong_sub; [|reflexivity]. rewrite EA. symmetry. apply cong_mod. lia.
    + apply orb_prop in H2. destruct H2 as [H2|H2]; [apply orb_prop in H2; destruct H2 as [H2|H2]; [left|right; left]|right; right]; [|lia..].
      apply existsb_exists in H2. destruct H2 as (x & X & E). apply Z.eqb_eq in E. congruence.
  - destruct (IH (N + 1) ((2 * A) mod n) ltac:(lia)) with (i := i - 1) as (v' & V); [|exact H3|cbn [length] in I; lia|exists v'; replace (N + i) with (N + 1 + (i - 1)) by lia; exact V].
    rewrite Z.add_1_r, Z.pow_succ_r by lia. apply cong_iff; [lia|]. apply cong_mul; [reflexivity|]. rewrite EA. apply cong_mod. lia.
Qed.
Definition except_r1 : list Z := [0x95276d983672707fcee754fd8663895a607bd60223d33ceab22ebef8f3e7ba22; 0xa777dca77e9ade6f424982ee3c0eb5a3cf18782780f1bc887f146763ccce1544; 0x5609fd079e6f83641e4b38047723af5a5f986297253352c86530267f72e06544].
Definition except_k1 : list Z := [0x9307bf43ebe7f66f90895a45f9b0a1152c4133e18ee990726a8f565a7121788a].
Lemma check_r1 : check n256r1 except_r1 819 (2 ^ 819 mod n256r1) inv_r1 = true.
Proof. vm_cast_no_check (eq_refl true). Qed.
Lemma check_k1 : check n256k1 except_k1 819 (2 ^ 819 mod n256k1) inv_k1 = true.
Proof. vm_cast_no_check (eq_refl true). Qed.
Definition digits (a : Z) : option nat := match int_truediv 1 a with Ok f => Some (length (float_bits 2200 f)) | Raise _ => None end.
Lemma digits_r1 : map digits except_r1 = [Some 820%nat; Some 820%nat; Some 821%nat].
Proof. vm_cast_no_check (eq_refl [Some 820%nat; Some 820%nat; Some 821%nat]). Qed.
Lemma digits_k1 : map digits except_k1 = [Some 820%nat].
Proof. vm_cast_no_check (eq_refl [Some 820%nat]). Qed.

(** a divisor that acts as its inverse is one of the exceptions *)
Lemma good_divisor n except l a N : 1 < n < 2 ^ 256 -> length l = 257%nat -> check n except 819 (2 ^ 819 mod n) l = true -> 0 < a < n ->
  (forall j, 0 <= j <= 1000 -> 2 ^ j <= a < 2 ^ (j + 1) -> 1074 - j <= N <= 1075 - j) -> cong n (a * (2 ^ N - 1)) 1 ->
  In a except.
Proof.
  intros Hn Hl C A HN I. destruct (Z.log2_spec a ltac:(lia)) as [L1 L2]. pose proof (Z.log2_nonneg a) as J0. set (j := Z.log2 a) in *.
  assert (J : j <= 255). { destruct (Z.le_gt_cases j 255) as [|G]; [assumption|]. exfalso. assert (2 ^ 256 <= 2 ^ j) by (apply Z.pow_le_mono_r; lia). lia. }
  specialize (HN j ltac:(lia) ltac:(lia)). destruct (check_ok n except ltac:(lia) l 819 _ ltac:(lia) eq_refl C (N - 819) ltac:(lia)) as (v & V0 & V & D). replace (819 + (N - 819)) with N in V, D by lia.
  assert (AV : cong n a v).
  { transitivity (a * (v * (2 ^ N - 1))); [rewrite V; apply cong_eq; ring|]. transitivity (v * (a * (2 ^ N - 1))); [apply cong_eq; ring|]. rewrite I. apply cong_eq. ring. }
  assert (a = v) as -> by (apply (cong_small n); try assumption; lia). destruct D as [D|D]; [exact D|]. exfalso.
  destruct (Z.eq_dec N (1074 - j)) as [->|NE].
  - replace (1076 - (1074 - j)) with (Z.succ (Z.succ j)) in D by lia. replace (1074 - (1074 - j)) with j in D by lia. rewrite (Z.pow_succ_r 2 (Z.succ j)) in D by lia. lia.
  - assert (N = 1075 - j) as -> by lia. replace (1076 - (1075 - j)) with (Z.succ j) in D by lia. replace (1074 - (1075 - j)) with (j - 1) in D by lia.
    assert (2 ^ (j - 1) <= 2 ^ j) by (destruct (Z.eq_dec j 0) as [->|]; [discriminate|apply Z.pow_le_mono_r; lia]). lia.
Qed.
