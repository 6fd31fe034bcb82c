(** The text of the C files, line by line: each string is one line of the file, in order, beginning with line 1.  Nothing is left out but the ends of
    the lines.  mpi.h is in [TextModel]. *)
From Verif Require Import Base.
#[local] Open Scope string_scope.


(** cart.c 1-133: the whole file. *)
Definition s_cart_c : list string := [
  "#include ""mpiP.h""";
  "";
  "/*";
  " * MPI_Cart_create";
  " *";
  " * create a new communicator,";
  " */";
  "";
  "";
  "int FC_FUNC( mpi_cart_create , MPI_CART_CREATE )"; (* 10 *)
  "	 ( int *comm_old, int *ndims, int *dims, int *periods,";
  "           int *reorder, int *comm_cart, int *ierr)";
  "{";
  "  *ierr = MPI_Cart_create( *comm_old, *ndims, dims, periods, *reorder,";
  "  	                   comm_cart);";
  "  return(MPI_SUCCESS);";
  "}";
  "";
  "";
  "int MPI_Cart_create( MPI_Comm comm_old, int ndims, int *dims, int *periods,"; (* 20 *)
  "                     int reorder, MPI_Comm *comm_cart)";
  "{";
  "  int i;";
  "  for (i = 0; i < ndims; i++)";
  "    if (dims[i] > 1)";
  "    {";
  "      printf(""MPI_Cart_create: Greater dimension than no. of procs\n"");";
  "      abort();";
  "    }";
  ""; (* 30 *)
  "  MPI_Comm_dup(comm_old, comm_cart);";
  "";
  "  return MPI_SUCCESS;";
  "}";
  "";
  "";
  "/*";
  " * MPI_Cart_get";
  " *";
  " * Returns information about the cartesian organization"; (* 40 *)
  " * of the communicator.";
  " *";
  " * Assuming the user gives right maxdims, the only possible";
  " * dimensions are (1,1,..,1) for however many dimensions";
  " */";
  "";
  "";
  "int FC_FUNC( mpi_cart_get , MPI_CART_GET )";
  "         (int * comm, int * maxdims, int * dims,";
  "          int * periods, int * coords, int * ierr)"; (* 50 *)
  "{";
  "  *ierr = MPI_Cart_get(*comm, *maxdims, dims, periods, coords);";
  "  return(MPI_SUCCESS);";
  "}";
  "";
  "";
  "int MPI_Cart_get(MPI_Comm comm, int maxdims, int *dims,";
  "                 int *periods, int *coords)";
  "{";
  "  int i;"; (* 60 *)
  "  for (i=0;i<maxdims;i++)";
  "  {";
  "    dims[i]=1;";
  "    coords[i]=0;";
  "  }";
  "  return(MPI_SUCCESS);";
  "}";
  "";
  "";
  ""; (* 70 *)
  "/*";
  " * MPI_Cart_coords";
  " *";
  " * Returns the coordinates of a particular rank";
  " * If rank != 0, erroneous.  Coordinates must be (0,0)";
  " */";
  "";
  "";
  "int FC_FUNC( mpi_cart_coords , MPI_CART_COORDS)";
  "         (int *comm, int *rank, int *maxdims, int *coords, int *ierr)"; (* 80 *)
  "{";
  "  *ierr = MPI_Cart_coords(*comm, *rank, *maxdims, coords);";
  "  return(MPI_SUCCESS);";
  "}";
  "";
  "";
  "int MPI_Cart_coords(MPI_Comm comm, int rank, int maxdims, int *coords)";
  "{";
  "  int i;";
  ""; (* 90 *)
  "  if (rank != 0)";
  "  {";
  "    printf(""MPI_Cart_coords: Rank != 0\n"");";
  "    abort();";
  "  }";
  "";
  "  for (i=0;i<maxdims;i++)";
  "    coords[i]=0;";
  "";
  "  return MPI_SUCCESS;"; (* 100 *)
  "}";
  "";
  "";
  "/*";
  " * MPI_Dims_create";
  " *";
  " * A convenience function to distribute nodes among a grid.  Since we have one";
  " * node only, every dimension must be ""1"" or it is erroneous";
  " */";
  ""; (* 110 *)
  "int FC_FUNC( mpi_dims_create , MPI_DIMS_CREATE )";
  "         (int *nnodes, int *ndims, int * dims, int *ierr)";
  "{";
  "  *ierr = MPI_Dims_create(*nnodes, *ndims, dims);";
  "  return(MPI_SUCCESS);";
  "}";
  "";
  "";
  "int MPI_Dims_create(int nnodes, int ndims, int *dims)";
  "{"; (* 120 *)
  "  int i;";
  "";
  "  if (nnodes > 1)";
  "  {";
  "    printf(""MPI_Dims_create: More nodes than procs specified.\n"");";
  "    abort();";
  "  }";
  "";
  "  for (i=0; i<ndims; i++)";
  "    dims[i] = 1;"; (* 130 *)
  "";
  "  return MPI_SUCCESS;";
  "}"
].

(** collective.c 1-522: the whole file. *)
Definition s_collective_c : list string := [
  "";
  "#include ""mpiP.h""";
  "";
  "";
  "";
  "/*";
  " * COLLECTIVE";
  " */";
  "";
  ""; (* 10 *)
  "int FC_FUNC( mpi_barrier , MPI_BARRIER )(int *comm, int *ierror)";
  "{";
  "  *ierror=MPI_Barrier( *comm );";
  "  return MPI_SUCCESS;";
  "}";
  "";
  "";
  "int MPI_Barrier(MPI_Comm comm )";
  "{";
  "  return(MPI_SUCCESS);"; (* 20 *)
  "}";
  "";
  "";
  "/*********/";
  "";
  "";
  "int FC_FUNC( mpi_bcast , MPI_BCAST )(void *buffer, int *count, int *datatype,";
  "				   int *root, int *comm, int *ierror )";
  "{";
  "  *ierror=MPI_Bcast(buffer, *count, *datatype, *root, *comm);"; (* 30 *)
  "  return MPI_SUCCESS;";
  "}";
  "";
  "";
  "";
  "int MPI_Bcast(void* buffer, int count, MPI_Datatype datatype,";
  "	      int root, MPI_Comm comm )";
  "{";
  "  if (root==MPI_ROOT)";
  "    return(MPI_SUCCESS);"; (* 40 *)
  "";
  "  if (root!=0)";
  "    {";
  "      fprintf(stderr,""MPI_Bcast: bad root = %d\n"",root);";
  "      abort();";
  "    }";
  "";
  "";
  "  return(MPI_SUCCESS);";
  "}"; (* 50 *)
  "";
  "";
  "/*********/";
  "";
  "";
  "int FC_FUNC( mpi_gather , MPI_GATHER )";
  "                       (void *sendbuf, int *sendcount, int *sendtype,";
  "			void *recvbuf, int *recvcount, int *recvtype,";
  "			int *root, int *comm, int *ierror)";
  "{"; (* 60 *)
  "  *ierror=MPI_Gather( mpi_c_in_place(sendbuf), *sendcount, *sendtype,";
  "		      recvbuf, *recvcount, *recvtype,";
  "		      *root, *comm);";
  "  return MPI_SUCCESS;";
  "}";
  "";
  "";
  "int MPI_Gather(void* sendbuf, int sendcount, MPI_Datatype sendtype,";
  "	       void* recvbuf, int recvcount, MPI_Datatype recvtype,";
  "	       int root, MPI_Comm comm)"; (* 70 *)
  "{";
  "  if (sendbuf==MPI_IN_PLACE)";
  "    return(MPI_SUCCESS);";
  "";
  "  if (root==MPI_ROOT)";
  "    return(MPI_SUCCESS);";
  "";
  "  if (root!=0)";
  "    {";
  "      fprintf(stderr,""MPI_Gather: bad root = %d\n"",root);"; (* 80 *)
  "      abort();";
  "    }";
  "";
  "  copy_data2(sendbuf, sendcount, sendtype,";
  "             recvbuf, recvcount, recvtype);";
  "//  memcpy(recvbuf,sendbuf,sendcount*sendtype);";
  "";
  "  return(MPI_SUCCESS);";
  "}";
  ""; (* 90 *)
  "/*********/";
  "";
  "";
  "";
  "int FC_FUNC( mpi_gatherv , MPI_GATHERV )";
  "                        ( void *sendbuf, int *sendcount, int *sendtype,";
  "			  void *recvbuf, int *recvcounts, int *displs,";
  "			  int *recvtype, int *root, int *comm, int *ierror)";
  "{";
  "  *ierror=MPI_Gatherv( mpi_c_in_place(sendbuf), *sendcount, *sendtype,"; (* 100 *)
  "		       recvbuf, recvcounts, displs,";
  "		       *recvtype, *root, *comm);";
  "  return MPI_SUCCESS;";
  "}";
  "";
  "";
  "int MPI_Gatherv(void* sendbuf, int sendcount, MPI_Datatype sendtype,";
  "		void* recvbuf, int *recvcounts, int *displs,";
  "		MPI_Datatype recvtype, int root, MPI_Comm comm)";
  "{"; (* 110 *)
  "  int offset;";
  "  MPI_Aint rt_extent;";
  "";
  "  if (sendbuf==MPI_IN_PLACE)";
  "    return(MPI_SUCCESS);";
  "";
  "  if (root==MPI_ROOT)";
  "    return(MPI_SUCCESS);";
  "";
  "  if (root!=0)"; (* 120 *)
  "    {";
  "      fprintf(stderr,""MPI_Gatherv: bad root = %d\n"",root);";
  "      abort();";
  "    }";
  "";
  "  MPI_Type_extent(recvtype, &rt_extent);";
  "  offset=displs[0]*rt_extent;";
  "";
  "  copy_data2(sendbuf, sendcount, sendtype,";
  "             (char*)recvbuf+offset, recvcounts[0], recvtype);"; (* 130 *)
  "";
  "//  memcpy( (char *)recvbuf+offset, sendbuf, recvcounts[0] * recvtype);";
  "";
  "  return(MPI_SUCCESS);";
  "}";
  "";
  "";
  "";
  "/*********/";
  ""; (* 140 *)
  "";
  "int FC_FUNC( mpi_allgather , MPI_ALLGATHER )";
  "                          ( void *sendbuf, int *sendcount, int *sendtype,";
  "			    void *recvbuf, int *recvcount, int *recvtype,";
  "			    int *comm, int *ierror)";
  "{";
  "  *ierror=MPI_Allgather( mpi_c_in_place(sendbuf), *sendcount, *sendtype,";
  "			 recvbuf, *recvcount, *recvtype,";
  "			 *comm );";
  "  return MPI_SUCCESS;"; (* 150 *)
  "}";
  "";
  "";
  "int MPI_Allgather(void* sendbuf, int sendcount, MPI_Datatype sendtype,";
  "		  void* recvbuf, int recvcount, MPI_Datatype recvtype,";
  "		  MPI_Comm comm)";
  "{";
  "  if (sendbuf==MPI_IN_PLACE)";
  "    return(MPI_SUCCESS);";
  ""; (* 160 *)
  "  copy_data2(sendbuf, sendcount, sendtype,";
  "             recvbuf, recvcount, recvtype);";
  "//  memcpy(recvbuf,sendbuf,sendcount * sendtype);";
  "";
  "  return(MPI_SUCCESS);";
  "";
  "}";
  "";
  "";
  "/*********/"; (* 170 *)
  "";
  "";
  "int FC_FUNC( mpi_allgatherv , MPI_ALLGATHERV )";
  "                          ( void *sendbuf, int *sendcount, int *sendtype,";
  "			    void *recvbuf, int *recvcounts, int *displs,";
  "                            int *recvtype, int *comm, int *ierror)";
  "{";
  "  *ierror=MPI_Allgatherv( mpi_c_in_place(sendbuf), *sendcount, *sendtype,";
  "			  recvbuf, recvcounts, displs,";
  "                          *recvtype, *comm );"; (* 180 *)
  "  return MPI_SUCCESS;";
  "}";
  "";
  "";
  "int MPI_Allgatherv(void* sendbuf, int sendcount, MPI_Datatype sendtype,";
  "		   void* recvbuf, int *recvcounts, int *displs,";
  "                   MPI_Datatype recvtype, MPI_Comm comm)";
  "{";
  "  int offset;";
  "  MPI_Aint rt_extent;"; (* 190 *)
  "";
  "  if (sendbuf==MPI_IN_PLACE)";
  "    return(MPI_SUCCESS);";
  "";
  "  MPI_Type_extent(recvtype, &rt_extent);";
  "  offset=displs[0]*rt_extent;";
  "";
  "  copy_data2(sendbuf, sendcount, sendtype,";
  "             (char*)recvbuf+offset, recvcounts[0], recvtype);";
  ""; (* 200 *)
  "//  memcpy( (char *)recvbuf+offset, sendbuf, recvcounts[0] * recvtype);";
  "";
  "  return(MPI_SUCCESS);";
  "}";
  "";
  "";
  "/*********/";
  "";
  "/* MPI_Scatter";
  " * Scattering to one proc involves only one copy operation, so copy"; (* 210 *)
  " * data from source to dest pointer";
  " */";
  "";
  "int FC_FUNC( mpi_scatter, MPI_SCATTER )";
  "                         ( void *sendbuf, int *sendcount, int *sendtype,";
  "			 void *recvbuf, int *recvcount, int *recvtype,";
  "			 int *root, int *comm, int *ierror)";
  "{";
  "  *ierror = MPI_Scatter(sendbuf, *sendcount, *sendtype,";
  "  			mpi_c_in_place(recvbuf), *recvcount, *recvtype,"; (* 220 *)
  "			*root, *comm);";
  "  return MPI_SUCCESS;";
  "}";
  "";
  "int MPI_Scatter(void * sendbuf, int sendcount, MPI_Datatype sendtype,";
  "		void * recvbuf, int recvcount, MPI_Datatype recvtype,";
  "		int root, MPI_Comm comm)";
  "{";
  "  if (recvbuf==MPI_IN_PLACE)";
  "    return(MPI_SUCCESS);"; (* 230 *)
  "";
  "  if (root==MPI_ROOT)";
  "    return(MPI_SUCCESS);";
  "";
  "  if (root!=0)";
  "    {";
  "      fprintf(stderr,""MPI_Scatter: bad root = %d\n"",root);";
  "      abort();";
  "    }";
  ""; (* 240 *)
  "  copy_data2(sendbuf, sendcount, sendtype,";
  "             recvbuf, recvcount, recvtype);";
  "";
  "  return(MPI_SUCCESS);";
  "}";
  "";
  "";
  "";
  "/*********/";
  ""; (* 250 *)
  "";
  "int FC_FUNC( mpi_scatterv , MPI_SCATTERV )";
  "                         ( void *sendbuf, int *sendcounts, int *displs,";
  "			   int *sendtype, void *recvbuf, int *recvcount,";
  "			   int *recvtype, int *root, int *comm, int *ierror)";
  "{";
  "  *ierror=MPI_Scatterv(sendbuf, sendcounts, displs,";
  "		       *sendtype, mpi_c_in_place(recvbuf), *recvcount,";
  "		       *recvtype, *root, *comm);";
  "  return MPI_SUCCESS;"; (* 260 *)
  "}";
  "";
  "";
  "";
  "int MPI_Scatterv(void* sendbuf, int *sendcounts, int *displs,";
  "		 MPI_Datatype sendtype, void* recvbuf, int recvcount,";
  "		 MPI_Datatype recvtype, int root, MPI_Comm comm)";
  "{";
  "  int offset;";
  "  MPI_Aint st_extent;"; (* 270 *)
  "";
  "  if (recvbuf==MPI_IN_PLACE)";
  "    return(MPI_SUCCESS);";
  "";
  "  if (root==MPI_ROOT)";
  "    return(MPI_SUCCESS);";
  "";
  "  if (root!=0)";
  "    {";
  "      fprintf(stderr,""MPI_Scatterv: bad root = %d\n"",root);"; (* 280 *)
  "      abort();";
  "    }";
  "  MPI_Type_extent(sendtype, &st_extent);";
  "  offset=displs[0]*st_extent;";
  "";
  "  copy_data2((char*)sendbuf+offset, sendcounts[0], sendtype,";
  "             recvbuf, recvcount, recvtype);";
  "//  memcpy(recvbuf,(char *)sendbuf+offset,sendcounts[0] * sendtype);";
  "";
  "  return(MPI_SUCCESS);"; (* 290 *)
  "}";
  "";
  "";
  "";
  "/*********/";
  "";
  "";
  "int FC_FUNC( mpi_reduce , MPI_REDUCE )";
  "                       ( void *sendbuf, void *recvbuf, int *count,";
  "			 int *datatype, int *op, int *root, int *comm,"; (* 300 *)
  "			 int *ierror)";
  "{";
  "  *ierror=MPI_Reduce(sendbuf, recvbuf, *count,";
  "		     *datatype, *op, *root, *comm);";
  "  return MPI_SUCCESS;";
  "}";
  "";
  "";
  "";
  "int MPI_Reduce(void* sendbuf, void* recvbuf, int count,"; (* 310 *)
  "	       MPI_Datatype datatype, MPI_Op op, int root, MPI_Comm comm)";
  "";
  "{";
  "  if (root!=0)";
  "    {";
  "      fprintf(stderr,""MPI_Reduce: bad root = %d\n"",root);";
  "      abort();";
  "    }";
  "";
  "  copy_data2(sendbuf, count, datatype, recvbuf, count, datatype);"; (* 320 *)
  "//  memcpy(recvbuf,sendbuf,count * datatype);";
  "";
  "  return(MPI_SUCCESS);";
  "}";
  "";
  "";
  "/*********/";
  "";
  "";
  "int FC_FUNC( mpi_allreduce , MPI_ALLREDUCE )"; (* 330 *)
  "                          ( void *sendbuf, void *recvbuf, int *count,";
  "			    int *datatype, int *op, int *comm, int *ierror)";
  "{";
  "  *ierror=MPI_Allreduce(sendbuf, recvbuf, *count,";
  "			*datatype, *op, *comm);";
  "  return MPI_SUCCESS;";
  "";
  "}";
  "";
  ""; (* 340 *)
  "int MPI_Allreduce(void* sendbuf, void* recvbuf, int count,";
  "		  MPI_Datatype datatype, MPI_Op op, MPI_Comm comm)";
  "{";
  "  if (sendbuf==MPI_IN_PLACE)";
  "    return(MPI_SUCCESS);";
  "";
  "  copy_data2(sendbuf, count, datatype, recvbuf, count, datatype);";
  "//  memcpy(recvbuf,sendbuf,count * datatype);";
  "";
  "  return(MPI_SUCCESS);"; (* 350 *)
  "";
  "}";
  "";
  "";
  "/*********/";
  "";
  "";
  "/* MPI_Reduce_scatter";
  " * Performs reduction of n*sum(recvcounts) and distributes to all members";
  " * in a group. We do this to only one proc, so recvcounts[0] is only used."; (* 360 *)
  " */";
  "";
  "int FC_FUNC(mpi_reduce_scatter, MPI_REDUCE_SCATTER)";
  "                (void * sendbuf, void * recvbuf, int *recvcounts,";
  "                 int *datatype, int *op, int *comm, int *ierr)";
  "{";
  "  *ierr = MPI_Reduce_scatter(sendbuf, recvbuf, recvcounts, *datatype, *op, *comm);";
  "  return MPI_SUCCESS;";
  "}";
  ""; (* 370 *)
  "";
  "int MPI_Reduce_scatter(void* sendbuf, void* recvbuf, int *recvcounts,";
  "                         MPI_Datatype datatype, MPI_Op op, MPI_Comm comm)";
  "{";
  "  copy_data2(sendbuf, recvcounts[0], datatype, recvbuf, recvcounts[0], datatype);";
  "  return MPI_SUCCESS;";
  "}";
  "";
  "";
  "/*********/"; (* 380 *)
  "";
  "";
  "int FC_FUNC( mpi_scan , MPI_SCAN)";
  "                       ( void *sendbuf, void *recvbuf, int *count,";
  "                         int *datatype, int *op, int *comm,";
  "                         int *ierror)";
  "{";
  "  *ierror=MPI_Scan( sendbuf, recvbuf, *count,";
  "                    *datatype, *op, *comm);";
  "  return MPI_SUCCESS;"; (* 390 *)
  "}";
  "";
  "";
  "";
  "int MPI_Scan(void* sendbuf, void* recvbuf, int count,";
  "             MPI_Datatype datatype, MPI_Op op, MPI_Comm comm )";
  "{";
  "    copy_data2(sendbuf, count, datatype, recvbuf, count, datatype);";
  "";
  "    return(MPI_SUCCESS);"; (* 400 *)
  "}";
  "";
  "/*********/";
  "";
  "";
  "int FC_FUNC( mpi_alltoall , MPI_ALLTOALL )";
  "                        ( void *sendbuf, int *sendcount, int *sendtype,";
  "			  void *recvbuf, int *recvcount, int *recvtype,";
  "                          int *comm, int *ierror )";
  "{"; (* 410 *)
  "  *ierror=MPI_Alltoall(sendbuf, *sendcount, *sendtype,";
  "		       recvbuf, *recvcount, *recvtype,";
  "		       *comm);";
  "  return MPI_SUCCESS;";
  "}";
  "";
  "";
  "int MPI_Alltoall(void *sendbuf, int sendcount, MPI_Datatype sendtype,";
  "		 void *recvbuf, int recvcount, MPI_Datatype recvtype,";
  "		 MPI_Comm comm)"; (* 420 *)
  "{";
  "  copy_data2(sendbuf, sendcount, sendtype, recvbuf, recvcount, recvtype);";
  "//  memcpy(recvbuf,sendbuf,sendcount * sendtype);";
  "";
  "  return(MPI_SUCCESS);";
  "}";
  "";
  "";
  "/*********/";
  ""; (* 430 *)
  "";
  "int FC_FUNC( mpi_alltoallv , MPI_ALLTOALLV )";
  "           ( void *sendbuf, int *sendcounts, int *sdispls, int *sendtype,";
  "	     void *recvbuf, int *recvcounts, int *rdispls, int *recvtype,";
  "             int *comm, int *ierror )";
  "{";
  "";
  "  *ierror=MPI_Alltoallv(sendbuf, sendcounts, sdispls, *sendtype,";
  "			recvbuf, recvcounts, rdispls, *recvtype,";
  "			*comm);"; (* 440 *)
  "";
  "  return MPI_SUCCESS;";
  "}";
  "";
  "int MPI_Alltoallv(void *sendbuf, int *sendcounts,";
  "		  int *sdispls, MPI_Datatype sendtype,";
  "                  void *recvbuf, int *recvcounts,";
  "		  int *rdispls, MPI_Datatype recvtype,";
  "                  MPI_Comm comm)";
  ""; (* 450 *)
  "{";
  "  int send_offset;";
  "  int recv_offset;";
  "  MPI_Aint st_extent;";
  "  MPI_Aint rt_extent;";
  "";
  "  MPI_Type_extent(sendtype, &st_extent);";
  "  MPI_Type_extent(recvtype, &rt_extent);";
  "";
  "  send_offset=sdispls[0]*st_extent;"; (* 460 *)
  "  recv_offset=rdispls[0]*rt_extent;";
  "";
  "  copy_data2((char*)sendbuf+send_offset, sendcounts[0], sendtype,";
  "             (char*)recvbuf+recv_offset, recvcounts[0], recvtype);";
  "";
  "//  memcpy( (char *)recvbuf+recv_offset, (char *)sendbuf+send_offset,";
  "//	  sendcounts[0] * sendtype);";
  "";
  "";
  "  return(MPI_SUCCESS);"; (* 470 *)
  "}";
  "";
  "";
  "/*********/";
  "";
  "";
  "int FC_FUNC( mpi_alltoallw , MPI_ALLTOALLW )";
  "           ( void *sendbuf, int *sendcounts, int *sdispls, int *sendtypes,";
  "	     void *recvbuf, int *recvcounts, int *rdispls, int *recvtypes,";
  "             int *comm, int *ierror )"; (* 480 *)
  "{";
  "";
  "  *ierror=MPI_Alltoallw(sendbuf, sendcounts, sdispls, sendtypes,";
  "			recvbuf, recvcounts, rdispls, recvtypes,";
  "			*comm);";
  "";
  "  return MPI_SUCCESS;";
  "}";
  "";
  ""; (* 490 *)
  "int MPI_Alltoallw(void *sendbuf, int *sendcounts,";
  "		  int *sdispls, MPI_Datatype *sendtypes,";
  "                  void *recvbuf, int *recvcounts,";
  "		  int *rdispls, MPI_Datatype *recvtypes,";
  "                  MPI_Comm comm)";
  "";
  "{";
  "";
  "  copy_data2((char*)sendbuf+sdispls[0], sendcounts[0], sendtypes[0],";
  "             (char*)recvbuf+rdispls[0], recvcounts[0], recvtypes[0]);"; (* 500 *)
  "";
  "";
  "  return(MPI_SUCCESS);";
  "}";
  "";
  "";
  "";
  "/*********/";
  "";
  "MPI_Op MPI_Op_f2c(MPI_Fint op)"; (* 510 *)
  "{";
  "  return(op);";
  "}";
  "";
  "";
  "/*********/";
  "";
  "";
  "MPI_Fint MPI_Op_c2f(MPI_Op op)";
  "{"; (* 520 *)
  "  return(op);";
  "}"
].

(** comm.c 1-255: the whole file. *)
Definition s_comm_c : list string := [
  "";
  "#include ""mpiP.h""";
  "";
  "";
  "";
  "/*";
  " * Communicators";
  " *";
  " */";
  ""; (* 10 *)
  "";
  "";
  "MPI_Comm mpi_comm_new(void)";
  "{";
  "  MPI_Comm chandle;";
  "  Comm *cptr;";
  "  static int num=0;";
  "";
  "  mpi_alloc_handle(&chandle,(void **) &cptr);";
  ""; (* 20 *)
  "  cptr->sendlist=AP_list_new();";
  "  cptr->recvlist=AP_list_new();";
  "";
  "  cptr->num=num++;";
  "";
  "  return(chandle);";
  "}";
  "";
  "";
  "/*********/"; (* 30 *)
  "";
  "";
  "int FC_FUNC( mpi_comm_free , MPI_COMM_FREE )(int *comm, int *ierror)";
  "{";
  "  *ierror=MPI_Comm_free(comm);";
  "  return MPI_SUCCESS;";
  "}";
  "";
  "";
  "/*"; (* 40 *)
  " * MPI_Comm_free()";
  " *";
  " * Note: will NOT free any pending MPI_Request handles";
  " * that are allocated...  correct user code should have";
  " * already done a Wait or Test to free them.";
  " *";
  " */";
  "";
  "";
  "int MPI_Comm_free(MPI_Comm *comm)"; (* 50 *)
  "{";
  "  pList sendlist, recvlist;";
  "  int size;";
  "  Comm *mycomm;";
  "";
  "  mycomm=mpi_handle_to_ptr(*comm);   /* (Comm *)(*comm) */";
  "";
  "  sendlist=mycomm->sendlist;";
  "  recvlist=mycomm->recvlist;";
  ""; (* 60 *)
  "  size=AP_list_size(sendlist);";
  "  if (size!=0)";
  "    fprintf(stderr,""MPI_Comm_free: warning: %d pending send reqs\n"",";
  "	    size);";
  "  AP_list_free(sendlist);";
  "";
  "";
  "  size=AP_list_size(recvlist);";
  "  if (size!=0)";
  "    fprintf(stderr,""MPI_Comm_free: warning: %d pending receive reqs\n"","; (* 70 *)
  "	    size);";
  "  AP_list_free(recvlist);";
  "";
  "  mpi_free_handle(*comm);            /* free(mycomm); */";
  "  *comm=MPI_COMM_NULL;";
  "";
  "  return(MPI_SUCCESS);";
  "}";
  "";
  ""; (* 80 *)
  "/*********/";
  "";
  "";
  "";
  "int FC_FUNC( mpi_comm_size , MPI_COMM_SIZE )(int *comm, int *size, int *ierror)";
  "{";
  "  *ierror=MPI_Comm_size(*comm, size);";
  "  return MPI_SUCCESS;";
  "}";
  ""; (* 90 *)
  "";
  "";
  "int MPI_Comm_size(MPI_Comm comm, int *size)";
  "{";
  "  *size=1;";
  "";
  "  return(MPI_SUCCESS);";
  "}";
  "";
  ""; (* 100 *)
  "/*********/";
  "";
  "";
  "int FC_FUNC( mpi_comm_rank , MPI_COMM_RANK )(int *comm, int *rank, int *ierror)";
  "{";
  "  *ierror=MPI_Comm_rank( *comm, rank);";
  "  return MPI_SUCCESS;";
  "}";
  "";
  ""; (* 110 *)
  "int MPI_Comm_rank(MPI_Comm comm, int *rank)";
  "{";
  "  *rank=0;";
  "";
  "  return(MPI_SUCCESS);";
  "}";
  "";
  "";
  "";
  "/*********/"; (* 120 *)
  "";
  "";
  "int FC_FUNC( mpi_comm_dup , MPI_COMM_DUP )(int *comm, int *newcomm, int *ierror)";
  "{";
  "";
  "  *ierror=MPI_Comm_dup( *comm, newcomm);";
  "  return MPI_SUCCESS;";
  "";
  "}";
  ""; (* 130 *)
  "";
  "int MPI_Comm_dup(MPI_Comm comm, MPI_Comm *newcomm)";
  "{";
  "  *newcomm= mpi_comm_new();";
  "";
  "#ifdef INFO";
  "  fflush(stdout);";
  "  fprintf(stderr,""MPI_Comm_dup: new comm handle=%d\n"",*newcomm);";
  "#endif";
  ""; (* 140 *)
  "  return(MPI_SUCCESS);";
  "}";
  "";
  "";
  "/*********/";
  "";
  "";
  "int FC_FUNC( mpi_comm_create, MPI_COMM_CREATE)";
  "     (int *comm, int *group, int *newcomm, int *ierror)";
  "{"; (* 150 *)
  "  *ierror=MPI_Comm_create(*comm,*group,newcomm);";
  "  return MPI_SUCCESS;";
  "}";
  "";
  "";
  "";
  "int MPI_Comm_create(MPI_Comm comm, MPI_Group group, MPI_Comm *newcomm)";
  "{";
  "  if (group==MPI_GROUP_NULL || group==MPI_GROUP_EMPTY)";
  "    *newcomm= MPI_COMM_NULL;"; (* 160 *)
  "  else";
  "    *newcomm=mpi_comm_new();";
  "";
  "  return(MPI_SUCCESS);";
  "}";
  "";
  "";
  "";
  "/*********/";
  ""; (* 170 *)
  "";
  "int FC_FUNC( mpi_comm_split, MPI_COMM_SPLIT )";
  "     (int *comm, int *color, int *key, int *newcomm, int *ierror)";
  "{";
  "  *ierror=MPI_Comm_split(*comm,*color,*key,newcomm);";
  "  return MPI_SUCCESS;";
  "";
  "}";
  "";
  ""; (* 180 *)
  "";
  "int MPI_Comm_split(MPI_Comm comm, int color, int key, MPI_Comm *newcomm)";
  "{";
  "  if (color==MPI_UNDEFINED)";
  "    *newcomm=MPI_COMM_NULL;";
  "  else";
  "    *newcomm= mpi_comm_new();";
  "";
  "  return(MPI_SUCCESS);";
  "}"; (* 190 *)
  "";
  "";
  "/*********/";
  "";
  "";
  "int FC_FUNC( mpi_comm_group, MPI_COMM_GROUP )";
  "     (int *comm, int *group, int *ierror)";
  "{";
  "  *ierror= MPI_Comm_group(*comm, group);";
  "  return MPI_SUCCESS;"; (* 200 *)
  "}";
  "";
  "";
  "";
  "int MPI_Comm_group(MPI_Comm comm, MPI_Group *group)";
  "{";
  "  if (comm==MPI_COMM_NULL)";
  "    *group= MPI_GROUP_NULL;";
  "  else";
  "    *group= MPI_GROUP_ONE;"; (* 210 *)
  "";
  "  return(MPI_SUCCESS);";
  "}";
  "";
  "/* Intercomm_create";
  " *";
  " */";
  "";
  "int FC_FUNC(mpi_intercomm_create, MPI_INTERCOMM_CREATE)(";
  "                          int * local_comm, int * local_leader,"; (* 220 *)
  "                          int * peer_comm,  int * remote_leader,";
  "                          int * tag, int * newintercomm, int* ierr)";
  "{";
  "  *ierr = MPI_Intercomm_create(*local_comm, *local_leader, *peer_comm,";
  "                               *remote_leader, *tag, newintercomm);";
  "  return MPI_SUCCESS;";
  "}";
  "";
  "int MPI_Intercomm_create(MPI_Comm local_comm, int local_leader,";
  "                          MPI_Comm peer_comm, int remote_leader,"; (* 230 *)
  "                          int tag, MPI_Comm *newintercomm)";
  "{";
  "  if (local_comm==MPI_COMM_NULL && peer_comm==MPI_COMM_NULL)";
  "    *newintercomm = MPI_COMM_NULL;";
  "  else";
  "    MPI_Comm_dup(MPI_COMM_WORLD, newintercomm);";
  "";
  "  return MPI_SUCCESS;";
  "}";
  ""; (* 240 *)
  "";
  "/*********/";
  "";
  "";
  "MPI_Comm MPI_Comm_f2c(MPI_Fint comm)";
  "{";
  "  /* Comm is an integer handle used both by C and Fortran */";
  "  return(comm);";
  "}";
  ""; (* 250 *)
  "";
  "MPI_Fint MPI_Comm_c2f(MPI_Comm comm)";
  "{";
  "  return(comm);";
  "}"
].

(** copy.c 1-92: the whole file. *)
Definition s_copy_c : list string := [
  "/*";
  " * copy.c";
  " *";
  " * memcpy ""wrapper"" to copy MPI Datatypes";
  " *";
  " */";
  "";
  "#include ""mpiP.h""";
  "#include ""type.h""";
  "#include <string.h>"; (* 10 *)
  "#include <stdio.h>";
  "#include <stdlib.h>";
  "#include <limits.h>";
  "";
  "//For type matching";
  "#ifdef HAVE_CONFIG_H";
  "#include <config.h>";
  "#endif";
  "";
  "/*"; (* 20 *)
  " * rml: this prototype should be in mpiP.h, but mpiP.h does not currently";
  " * include type.h so it can't just be added right now.  Come back and";
  " * fix this issue later...";
  " */";
  "";
  "extern int Pcopy_data2(void *source, int src_count, Datatype src_type,";
  "		       void *dest, int dest_count, Datatype dest_type);";
  "";
  "";
  "int copy_data2(void *source, int src_count, MPI_Datatype src_type,"; (* 30 *)
  "               void *dest, int dest_count, MPI_Datatype dest_type)";
  "{";
  "  Datatype src_ptr = *(Datatype*) mpi_handle_to_datatype(src_type);";
  "  Datatype dest_ptr = *(Datatype*) mpi_handle_to_datatype(dest_type);";
  "";
  "  return Pcopy_data2(source, src_count, src_ptr, dest, dest_count, dest_ptr);";
  "}";
  "";
  "";
  ""; (* 40 *)
  "";
  "int Pcopy_data2(void *source, int src_count, Datatype src_type,";
  "                void *dest, int dest_count, Datatype dest_type)";
  "{";
  "  int i;";
  "  int soffset, doffset;";
  "  MPI_Aint src_extent, dest_extent;";
  "";
  "  //commit checking here, since if any datatype is used in this function";
  "  // it is considered ""communication"".  Should it be somewhere else?"; (* 50 *)
  "";
  "  if (!(src_type->committed && dest_type->committed))";
  "  {";
  "    fprintf(stderr, ""Type not committed\n"");";
  "    exit(-1);";
  "  }";
  "";
  "  // A receive of less elements than sent";
  "  // is valid, but the reverse is a violation";
  ""; (* 60 *)
  "  if (src_type->count * src_count < dest_type->count * dest_count)";
  "  {";
  "    printf(""copy_data: Trying to over-receive\n"");";
  "    exit(1);";
  "  }";
  "";
  "  Type_extent(src_type, &src_extent);";
  "  Type_extent(dest_type, &dest_extent);";
  "";
  "  for (i = 0; i < dest_count * dest_type->count; i++)"; (* 70 *)
  "  {";
  "";
  "#ifdef TYPE_CHECKING";
  "    if ( src_type->pairs[i % src_type->count].type !=";
  "         dest_type->pairs[i % dest_type->count].type)";
  "    {";
  "      printf(""copy_data: Types don't match.\n"");";
  "      exit(1);";
  "    }";
  "#endif"; (* 80 *)
  "";
  "    soffset = src_type->pairs[i % src_type->count].disp + ((i / src_type->count) * src_extent);";
  "    doffset = dest_type->pairs[i % dest_type->count].disp + ((i / dest_type->count) * dest_extent);";
  "";
  "    memcpy(dest+doffset, source+soffset, Simpletype_length(dest_type->pairs[i % dest_type->count].type));";
  "  }";
  "  return MPI_SUCCESS;";
  "}";
  "";
  ""; (* 90 *)
  "";
  ""
].

(** error.c 1-13: the whole file. *)
Definition s_error_c : list string := [
  "";
  "#include ""mpiP.h""";
  "";
  "/*";
  " * Error handling code";
  " * Just a stub for now to support the MPI interface without actually";
  " * doing anything";
  " */";
  "";
  " int MPI_Errhandler_set(MPI_Comm comm, MPI_Errhandler handle)"; (* 10 *)
  " {";
  "   return(MPI_SUCCESS);";
  " }"
].

(** getcount.c 1-44: the whole file. *)
Definition s_getcount_c : list string := [
  "/* getcount.c";
  " *";
  " * 07/2007 JCY";
  " * Functions for count information regarding MPI_Status";
  " */";
  "";
  "#include ""type.h""";
  "#include ""mpiP.h""";
  "";
  ""; (* 10 *)
  "int FC_FUNC( mpi_get_count , MPI_GET_COUNT )";
  "	 (int *status, int *datatype, int *count, int *ierr)";
  "{";
  "  *ierr = MPI_Get_count((MPI_Status *)status, *datatype, count);";
  "  return(MPI_SUCCESS);";
  "}";
  "";
  "";
  "int MPI_Get_count(MPI_Status *status, MPI_Datatype datatype, int *count)";
  "{"; (* 20 *)
  "  *count = status->get_count;";
  "  return(MPI_SUCCESS);";
  "}";
  "";
  "";
  "/********/";
  "";
  "";
  "int FC_FUNC( mpi_get_elements , MPI_GET_ELEMENTS )";
  "	 (MPI_Status *status, int *datatype, int *count, int *ierr)"; (* 30 *)
  "{";
  "  *ierr = MPI_Get_elements(status, *datatype, count);";
  "  return(MPI_SUCCESS);";
  "}";
  "";
  "";
  "int MPI_Get_elements(MPI_Status *status, MPI_Datatype datatype, int *count)";
  "{";
  "  Datatype dt_ptr = *(Datatype*)mpi_handle_to_datatype(datatype);";
  "  *count = status->get_count * dt_ptr->count;"; (* 40 *)
  "  return(MPI_SUCCESS);";
  "}";
  "";
  ""
].

(** group.c 1-271: the whole file. *)
Definition s_group_c : list string := [
  "";
  "#include ""mpiP.h""";
  "";
  "";
  "/*********/";
  "";
  "";
  "int FC_FUNC( mpi_group_incl, MPI_GROUP_INCL )";
  "     (int *group, int *n, int *ranks, int *newgroup, int *ierror)";
  "{"; (* 10 *)
  "  *ierror= MPI_Group_incl(*group, *n, ranks, newgroup);";
  "  return MPI_SUCCESS;";
  "}";
  "";
  "";
  "int MPI_Group_incl(MPI_Group group, int n, int *ranks, MPI_Group *newgroup)";
  "{";
  "";
  "  if (group==MPI_GROUP_NULL)";
  "    {"; (* 20 *)
  "      fprintf(stderr,""MPI_Group_incl: null group passed in\n"");";
  "      abort();";
  "    }";
  "";
  "  if (group==MPI_GROUP_EMPTY || n==0)";
  "    *newgroup=MPI_GROUP_EMPTY;";
  "  else";
  "    if (n==1 && ranks[0]==0)";
  "      *newgroup=MPI_GROUP_ONE;";
  "    else"; (* 30 *)
  "      {";
  "	fprintf(stderr,""MPI_Group_incl: more than 1 proc in group\n"");";
  "	abort();";
  "      }";
  "";
  "  return(MPI_SUCCESS);";
  "}";
  "";
  "";
  "/*********/"; (* 40 *)
  "";
  "";
  "/* MPI_Group_range_incl";
  " * Include a strided range of ranks in a group.  For one processor, if";
  " * ""0"" is included in any of these ranges, it can only be the first rank.";
  " * Thus, if rank 0 is specified, include it, otherwise use GROUP_NULL";
  " */";
  "";
  "";
  "int FC_FUNC( mpi_group_range_incl, MPI_GROUP_RANGE_INCL )"; (* 50 *)
  "     (int *group, int *n, int ranges[][3], int *newgroup, int *ierror)";
  "{";
  "  *ierror= MPI_Group_range_incl(*group, *n, ranges, newgroup);";
  "  return MPI_SUCCESS;";
  "}";
  "";
  "";
  "int MPI_Group_range_incl(MPI_Group group, int n, int ranges[][3],";
  "			 MPI_Group *newgroup)";
  "{"; (* 60 *)
  "";
  "  if (group==MPI_GROUP_NULL)";
  "    {";
  "      fprintf(stderr,""MPI_Group_range_incl: null group passed in\n"");";
  "      abort();";
  "    }";
  "";
  "  if (group==MPI_GROUP_EMPTY || n==0)";
  "    *newgroup=MPI_GROUP_EMPTY;";
  "  else"; (* 70 *)
  "    if (n==1 && ranges[0][0]==0 && ranges[0][1]==0)";
  "      *newgroup=MPI_GROUP_ONE;";
  "    else";
  "      {";
  "	fprintf(stderr,""MPI_Group_range_incl: more than 1 proc in group\n"");";
  "	abort();";
  "      }";
  "";
  "  return(MPI_SUCCESS);";
  "}"; (* 80 *)
  "";
  "";
  "";
  "";
  "/*********/";
  "";
  "";
  "";
  "int FC_FUNC( mpi_group_union, MPI_GROUP_UNION )";
  "     (int *group1, int *group2, int *newgroup, int *ierror)"; (* 90 *)
  "{";
  "  *ierror= MPI_Group_union(*group1,*group2,newgroup);";
  "  return MPI_SUCCESS;";
  "}";
  "";
  "";
  "";
  "int MPI_Group_union(MPI_Group group1, MPI_Group group2, MPI_Group *newgroup)";
  "{";
  ""; (* 100 *)
  "  if (group1==MPI_GROUP_NULL || group2==MPI_GROUP_NULL)";
  "    {";
  "      fprintf(stderr,""MPI_Group_union: null group passed in\n"");";
  "      abort();";
  "    }";
  "";
  "  if (group1==MPI_GROUP_ONE || group2==MPI_GROUP_ONE)";
  "    *newgroup=MPI_GROUP_ONE;";
  "  else";
  "    *newgroup=MPI_GROUP_EMPTY;"; (* 110 *)
  "";
  "";
  "  return(MPI_SUCCESS);";
  "}";
  "";
  "/*********/";
  "";
  "";
  "";
  "int FC_FUNC( mpi_group_intersection, MPI_GROUP_INTERSECTION )"; (* 120 *)
  "     (int *group1, int *group2, int *newgroup, int *ierror)";
  "{";
  "  *ierror= MPI_Group_intersection(*group1,*group2,newgroup);";
  "  return MPI_SUCCESS;";
  "}";
  "";
  "";
  "";
  "int MPI_Group_intersection(MPI_Group group1, MPI_Group group2,";
  "			   MPI_Group *newgroup)"; (* 130 *)
  "{";
  "";
  "  if (group1==MPI_GROUP_NULL || group2==MPI_GROUP_NULL)";
  "    {";
  "      fprintf(stderr,""MPI_Group_intersection: null group passed in\n"");";
  "      abort();";
  "    }";
  "";
  "  if (group1==MPI_GROUP_ONE && group2==MPI_GROUP_ONE)";
  "    *newgroup=MPI_GROUP_ONE;"; (* 140 *)
  "  else";
  "    *newgroup=MPI_GROUP_EMPTY;";
  "";
  "";
  "  return(MPI_SUCCESS);";
  "}";
  "";
  "";
  "/*********/";
  ""; (* 150 *)
  "";
  "";
  "int FC_FUNC( mpi_group_difference, MPI_GROUP_DIFFERENCE )";
  "     (int *group1, int *group2, int *newgroup, int *ierror)";
  "{";
  "  *ierror= MPI_Group_difference(*group1,*group2,newgroup);";
  "  return MPI_SUCCESS;";
  "}";
  "";
  ""; (* 160 *)
  "";
  "int MPI_Group_difference(MPI_Group group1, MPI_Group group2,";
  "			 MPI_Group *newgroup)";
  "{";
  "";
  "  if (group1==MPI_GROUP_NULL || group2==MPI_GROUP_NULL)";
  "    {";
  "      fprintf(stderr,""MPI_Group_intersection: null group passed in\n"");";
  "      abort();";
  "    }"; (* 170 *)
  "";
  "  if (group1==MPI_GROUP_EMPTY || group2==MPI_GROUP_ONE)";
  "    *newgroup=MPI_GROUP_EMPTY;";
  "  else";
  "    *newgroup=MPI_GROUP_ONE;";
  "";
  "  return(MPI_SUCCESS);";
  "}";
  "";
  ""; (* 180 *)
  "";
  "/*********/";
  "";
  "";
  "int FC_FUNC( mpi_group_free, MPI_GROUP_FREE )(int *group, int *ierror)";
  "{";
  "  *ierror= MPI_Group_free(group);";
  "  return MPI_SUCCESS;";
  "}";
  ""; (* 190 *)
  "";
  "int MPI_Group_free(MPI_Group *group)";
  "{";
  "  *group= MPI_GROUP_NULL;";
  "";
  "  return(MPI_SUCCESS);";
  "}";
  "";
  "";
  "/*********/"; (* 200 *)
  "";
  "";
  "";
  "int FC_FUNC( mpi_group_translate_ranks, MPI_GROUP_TRANSLATE_RANKS )";
  "     ( int *group1, int *n, int *ranks1,";
  "       int *group2, int *ranks2, int *ierror)";
  "{";
  "  *ierror= MPI_Group_translate_ranks(*group1,*n,ranks1,*group2,ranks2);";
  "  return MPI_SUCCESS;";
  "}"; (* 210 *)
  "";
  "";
  "";
  "int MPI_Group_translate_ranks(MPI_Group group1, int n, int *ranks1,";
  "			      MPI_Group group2, int *ranks2)";
  "{";
  "  int i;";
  "";
  "  if (group1==MPI_GROUP_NULL || group2==MPI_GROUP_NULL)";
  "    {"; (* 220 *)
  "      fprintf(stderr,""MPI_Group_translate_ranks: null group passed in\n"");";
  "      abort();";
  "    }";
  "";
  "  if (n==0)";
  "    return(MPI_SUCCESS);";
  "";
  "  if (group1==MPI_GROUP_EMPTY)";
  "    {";
  "      fprintf(stderr,""MPI_Group_translate_ranks: empty input group\n"");"; (* 230 *)
  "      abort();";
  "    }";
  "";
  "  for (i=0; i<n; i++)";
  "    {";
  "      if (ranks1[i]!=0)";
  "	{";
  "	  fprintf(stderr,""MPI_Group_translate_ranks: bad input rank: %d\n"",";
  "		  ranks1[i]);";
  "	  abort();"; (* 240 *)
  "	}";
  "";
  "      if (group2!=MPI_GROUP_EMPTY)";
  "	ranks2[i]=ranks1[i];";
  "      else";
  "	ranks2[i]=MPI_UNDEFINED;";
  "    }";
  "";
  "";
  "  return(MPI_SUCCESS);"; (* 250 *)
  "";
  "}";
  "";
  "";
  "/*********/";
  "";
  "";
  "MPI_Group MPI_Group_f2c(MPI_Fint group)";
  "{";
  "  return(group);"; (* 260 *)
  "}";
  "";
  "";
  "/*********/";
  "";
  "";
  "MPI_Fint MPI_Group_c2f(MPI_Group group)";
  "{";
  "  return(group);";
  "}"; (* 270 *)
  ""
].

(** handles.c 1-309: the whole file. *)
Definition s_handles_c : list string := [
  "";
  "/*";
  " * 5/20/2005 RML";
  " *";
  " */";
  "";
  "";
  "#include ""mpiP.h""";
  "#include ""type.h""";
  "/*"; (* 10 *)
  " * handles.c";
  " *";
  " * handle management";
  " * based on code from mpich-1.x/ptrcvt.c";
  " * --> simplified and store item directly in the struct";
  " * rather than as pointer to separately allocated object.";
  " *";
  " * CAVEAT:";
  " * as in mpich-1, storage will grow as needed and will";
  " * remain at the high water mark since it is likely that"; (* 20 *)
  " * the user code will repeat the use.";
  " *";
  " */";
  "";
  "";
  "typedef struct _Handleitem";
  "{";
  "  int handle;";
  "  struct _Handleitem *next;";
  ""; (* 30 *)
  "  union";
  "  {";
  "    void *anything;           /* At least size of void *  */";
  "    Comm comm;";
  "    Req req;";
  "    Datatype* type;";
  "";
  "  } data;";
  "";
  ""; (* 40 *)
  "} Handleitem;";
  "";
  "";
  "/*";
  " * These must be consistent with each other";
  " *";
  " */";
  "";
  "#define BLOCK_ITEMS          (256)";
  "#define HANDLE_TO_BLOCK(x)   ( (x) >> 8)"; (* 50 *)
  "#define HANDLE_TO_INDEX(x)   ( (x) & 0xff )";
  "#define HANDLE(block,index)  ( (block << 8) | (index) )";
  "";
  "";
  "/*";
  " * The first block of handle items will be statically allocated.";
  " * Subsequent ones will be added if necessary.";
  " * blocks[0..nblocks-1] are allocated at any given time.";
  " *";
  " * Increase MAX_BLOCKS if you *really* need more active request"; (* 60 *)
  " * (Although probably something is wrong if you need more than 256k !!!)";
  " *";
  " */";
  "";
  "";
  "#define MAX_BLOCKS (1024)";
  "";
  "static Handleitem block0[BLOCK_ITEMS];     /* array of handleitems */";
  "static Handleitem *(blocks[MAX_BLOCKS]);   /* array of pointers to blocks */";
  "static int nblocks;"; (* 70 *)
  "";
  "";
  "static int need_to_init=1;";
  "static Handleitem *nextfree;";
  "";
  "";
  "/************************************************************************/";
  "";
  "void *mpi_malloc(int size)";
  "{"; (* 80 *)
  "  void *ret;";
  "";
  "  ret=malloc(size);";
  "";
  "  if (!ret)";
  "    {";
  "      fprintf(stderr,""mpi_malloc: failed to allocate %d bytes\n"",size);";
  "      abort();";
  "    }";
  ""; (* 90 *)
  "  return(ret);";
  "}";
  "";
  "";
  "void mpi_free(void *ptr)";
  "{";
  "  free(ptr);";
  "}";
  "";
  ""; (* 100 *)
  "/************************************************************************/";
  "";
  "";
  "/*";
  " * initialize a block s.t. handles are set and";
  " * 0 -> 1 -> 2 ... -> (BLOCK_ITEMS-1) -> NULL";
  " *";
  " */";
  "";
  "static Handleitem *init_block(int block, Handleitem *b)"; (* 110 *)
  "{";
  "  int i;";
  "";
  "  for (i=0; i<BLOCK_ITEMS-1; i++)";
  "    {";
  "      b[i].handle= HANDLE(block,i);";
  "      b[i].next = &b[i+1];";
  "    }";
  "";
  "  b[BLOCK_ITEMS-1].handle= HANDLE(block,BLOCK_ITEMS-1);"; (* 120 *)
  "  b[BLOCK_ITEMS-1].next=0;";
  "";
  "  return( &(b[0]) );";
  "}";
  "";
  "";
  "";
  "";
  "static void init_handles(void)";
  "{"; (* 130 *)
  "  int i;";
  "  Handleitem *new;";
  "";
  "  /*";
  "   * item 0 will not be used  (handle 0 maps to NULL)";
  "   *";
  "   */";
  "";
  "  new=init_block(0,block0);";
  ""; (* 140 *)
  "  nextfree=new->next;             /* Skip over using item 0 */";
  "  new->next=NULL;";
  "";
  "  /*";
  "   * initialize the array of blocks";
  "   *";
  "   */";
  "";
  "  blocks[0]=block0;";
  "  nblocks=1;"; (* 150 *)
  "";
  "  for (i=1; i<MAX_BLOCKS; i++)";
  "    blocks[i]=NULL;";
  "";
  "";
  "  need_to_init=0;";
  "}";
  "";
  "";
  ""; (* 160 *)
  "void mpi_destroy_handles(void)";
  "{";
  "  int i;";
  "";
  "  if (need_to_init)";
  "    return;";
  "";
  "  for (i=1; i<nblocks; i++)          /* blocks[0] is statically allocated */";
  "    mpi_free(blocks[i]);";
  ""; (* 170 *)
  "  need_to_init=1;";
  "}";
  "";
  "";
  "/************************************************************************/";
  "";
  "";
  "void mpi_alloc_handle(int *handle, void **data)";
  "{";
  "  Handleitem *new;"; (* 180 *)
  "";
  "  if (need_to_init)";
  "    init_handles();";
  "";
  "  if (nextfree)";
  "    {";
  "      new= nextfree;";
  "      nextfree= nextfree->next;";
  "      new->next=NULL;";
  ""; (* 190 *)
  "      *handle= new->handle;";
  "      *data= &(new->data);";
  "";
  "      return;";
  "    }";
  "";
  "  /* there is nothing free, so allocate a new block and add it";
  "   * to blocks[]";
  "   */";
  ""; (* 200 *)
  "  if (nblocks==MAX_BLOCKS)";
  "    {";
  "      fprintf(stderr,""mpi_allocate_handle: max %d active handles exceeded\n"",";
  "	      MAX_BLOCKS*BLOCK_ITEMS);";
  "      abort();";
  "    }";
  "";
  "  blocks[nblocks]= (Handleitem *)mpi_malloc(sizeof(Handleitem)* BLOCK_ITEMS);";
  "  new=init_block(nblocks,blocks[nblocks]);";
  ""; (* 210 *)
  "  nextfree= new->next;";
  "  new->next=NULL;";
  "";
  "  *handle= new->handle;";
  "  *data= &(new->data);";
  "";
  "  nblocks++;  /* DON'T FORGET THIS!!!! */";
  "";
  "#ifdef HANDLE_INFO";
  "  fflush(stdout);"; (* 220 *)
  "  fprintf(stderr,""mpi_alloc_handle: allocation %d blocks (%d handles)\n"",";
  "	  nblocks,nblocks*BLOCK_ITEMS);";
  "#endif";
  "";
  "}";
  "";
  "";
  "#ifdef CHECKS";
  "";
  "static void verify_handle(int handle, int block, int index)"; (* 230 *)
  "{";
  "  if (block>=nblocks || block<0 ||";
  "      index>=BLOCK_ITEMS || index<0)";
  "    {";
  "      fprintf(stderr,""mpi_verify_handle: bad handle\n"");";
  "      abort();";
  "    }";
  "";
  "  if (blocks[block][index].handle != handle)";
  "    {"; (* 240 *)
  "      fprintf(stderr,""mpi_verify_handle: handle mismatch\n"");";
  "      abort();";
  "    }";
  "}";
  "#endif";
  "";
  "void *mpi_handle_to_ptr(int handle)";
  "{";
  "  int block;";
  "  int index;"; (* 250 *)
  "";
  "  if (need_to_init)";
  "    init_handles();";
  "";
  "  if (!handle)     /* Handle 0 -> NULL */";
  "    return(NULL);";
  "";
  "  block=HANDLE_TO_BLOCK(handle);";
  "  index=HANDLE_TO_INDEX(handle);";
  ""; (* 260 *)
  "#ifdef CHECKS";
  "  verify_handle(handle,block,index);";
  "#endif";
  "";
  "  return( &(blocks[block][index].data) );";
  "}";
  "";
  "";
  "";
  "void mpi_free_handle(int handle)"; (* 270 *)
  "{";
  "  int block;";
  "  int index;";
  "  Handleitem *item;";
  "";
  "  if (!handle)                         /* ignore null handle */";
  "    return;";
  "";
  "  if (need_to_init)";
  "    {"; (* 280 *)
  "      fprintf(stderr,""mpi_free_handle: handles not initialized\n"");";
  "      abort();";
  "    }";
  "";
  "  block=HANDLE_TO_BLOCK(handle);";
  "  index=HANDLE_TO_INDEX(handle);";
  "";
  "#ifdef CHECKS";
  "  verify_handle(handle,block,index);";
  "#endif"; (* 290 *)
  "";
  "  item=&(blocks[block][index]);";
  "";
  "#ifdef CHECKS";
  "  if (item->next)";
  "    {";
  "      fprintf(stderr,""mpi_free_handle: handle still in use\n"");";
  "      abort();";
  "    }";
  "#endif"; (* 300 *)
  "";
  "";
  "  /* just return it to the free list.";
  "   * space is not reclaimed.";
  "   */";
  "";
  "  item->next=nextfree;";
  "  nextfree=item;";
  "}"
].

(** ic_merge.c 1-15: the whole file. *)
Definition s_ic_merge_c : list string := [
  "";
  "#include ""mpiP.h""";
  "";
  "/*";
  " * MPI_Intercomm_merge - Creates an intracommunicator from an intercommunicator";
  " * This is just a stub for now to support mpi function calls even in Serial";
  " * applications. In the case of a serial program, this function is a no-op and";
  " * only ever returns MPI_SUCCESS";
  " */";
  ""; (* 10 *)
  "int MPI_Intercomm_merge( MPI_Comm intercomm, int high, MPI_Comm *newintracomm )";
  "{";
  "  newintracomm =  &intercomm;";
  "  return(MPI_SUCCESS);";
  "}"
].

(** info.c 1-56: the whole file. *)
Definition s_info_c : list string := [
  "";
  "#include ""mpiP.h""";
  "";
  "";
  "";
  "/***/";
  "";
  "";
  "int FC_FUNC( mpi_info_create , MPI_INFO_CREATE ) (int *info, int *ierror)";
  "{"; (* 10 *)
  "  *ierror=MPI_Info_create(info);";
  "  return(MPI_SUCCESS);";
  "}";
  "";
  "";
  "";
  "int MPI_Info_create(MPI_Info *info)";
  "{";
  "  /* For now, we aren't storing anything, so don't bother with a real handle */";
  "  *info=0;"; (* 20 *)
  "  return(MPI_SUCCESS);";
  "}";
  "";
  "";
  "/***/";
  "";
  "";
  "int FC_FUNC( mpi_info_set , MPI_INFO_SET ) (int *info, char *key, char *value, int *ierror)";
  "{";
  "  *ierror=MPI_Info_set(*info, key, value);"; (* 30 *)
  "  return(MPI_SUCCESS);";
  "}";
  "";
  "";
  "int MPI_Info_set(MPI_Info info, char *key, char *value)";
  "{";
  "  /* for now, don't bother storing anything */";
  "  return(MPI_SUCCESS);";
  "}";
  ""; (* 40 *)
  "/***/";
  "";
  "";
  "int MPI_Info_free(MPI_Info *info)";
  "{";
  "    /* For now, we aren't storing anything, so don't bother with a real handle */";
  "    *info=0;";
  "    return(MPI_SUCCESS);";
  "}";
  ""; (* 50 *)
  "int FC_FUNC( mpi_info_free , MPI_INFO_FREE ) (int *info, int *ierror)";
  "{";
  "  *ierror=MPI_Info_free(info);";
  "  return(MPI_SUCCESS);";
  "}";
  ""
].

(** list.c 1-705: the whole file. *)
Definition s_list_c : list string := [
  "/*";
  " *  (C) 2000 UNIVERSITY OF CHICAGO";
  " *      See COPYRIGHT in top-level directory.";
  " */";
  "";
  "";
  "";
  "#include <stdlib.h>";
  "#include <stdio.h>";
  "#include ""listops.h"""; (* 10 *)
  "#include ""listP.h""";
  "";
  "/*";
  " * list management code";
  " *";
  " * For storing singly-linked lists of pointers.";
  " *";
  " */";
  "";
  ""; (* 20 *)
  "static int itemcount=0;";
  "static int headcount=0;";
  "";
  "";
  "/*";
  " * AP_listitem_malloc()";
  " *";
  " * malloc a new ilist item and return a pointer to it.";
  " *";
  " */"; (* 30 *)
  "";
  "static pListitem AP_listitem_malloc(void)";
  "{";
  "  pListitem item;";
  "";
  "  itemcount++;";
  "  item=(pListitem)malloc( (unsigned) sizeof(Listitem) );";
  "";
  "  if (!item)";
  "    {"; (* 40 *)
  "      perror(""AP_listitem_malloc: malloc failure"");";
  "      abort();";
  "    }";
  "";
  "  return(item);";
  "}";
  "";
  "";
  "";
  "/*"; (* 50 *)
  " * AP_listitem_free(listitem)";
  " *";
  " * Free a listitem generated by AP_listitem_malloc()";
  " *";
  " */";
  "";
  "static void AP_listitem_free(pListitem listitem)";
  "{";
  "  free(listitem);";
  "  itemcount--;"; (* 60 *)
  "}";
  "";
  "";
  "";
  "/*";
  " * AP_listitem_verify(void)";
  " *";
  " * Checks to see if there are any outstanding listitems that have been";
  " * malloc'd.  Returns true if there are any.";
  " *"; (* 70 *)
  " */";
  "";
  "int AP_listitem_verify(void)";
  "{";
  "  if (itemcount!=0)";
  "    fprintf(stderr,""AP_list_verify: outstanding items, count=%d\n"",";
  "	    itemcount);";
  "";
  "  if (headcount!=0)";
  "    fprintf(stderr,""AP_list_verify: outstanding lists, count=%d\n"","; (* 80 *)
  "	    headcount);";
  "";
  "  return( (itemcount!=0) || (headcount!=0) );";
  "}";
  "";
  "";
  "";
  "";
  "pListitem AP_listitem_prev(pListitem listitem)";
  "{"; (* 90 *)
  "  return(listitem->prev);";
  "}";
  "";
  "";
  "";
  "pListitem AP_listitem_next(pListitem listitem)";
  "{";
  "  return(listitem->next);";
  "}";
  ""; (* 100 *)
  "";
  "";
  "";
  "void *AP_listitem_data(pListitem listitem)";
  "{";
  "  return(listitem->data );";
  "}";
  "";
  "";
  ""; (* 110 *)
  "";
  "/***************************************************************/";
  "";
  "";
  "";
  "/*";
  " * AP_list_new(void)";
  " *";
  " * allocate an empty list return a pointer to it";
  " *"; (* 120 *)
  " */";
  "";
  "pList AP_list_new(void)";
  "{";
  "  pList list;";
  "";
  "  list=(pList)malloc(sizeof(List));";
  "";
  "  if (!list)";
  "    {"; (* 130 *)
  "      perror(""AP_list_new: malloc failure\n"");";
  "      abort();";
  "    }";
  "";
  "  list->head=NULL;";
  "  list->tail=NULL;";
  "  list->count=0;";
  "";
  "  headcount++;";
  "  return(list);"; (* 140 *)
  "}";
  "";
  "";
  "";
  "";
  "";
  "/*";
  " * AP_list_free(list)";
  " *";
  " * Free an entire list"; (* 150 *)
  " *";
  " */";
  "";
  "void AP_list_free(pList list)";
  "{";
  "  pListitem next,cur;";
  "  int count;";
  "";
  "  count=0;";
  "  cur=list->head;"; (* 160 *)
  "";
  "  while(cur)";
  "    {";
  "      next=cur->next;";
  "";
  "      AP_listitem_free(cur);";
  "      count++;";
  "";
  "      cur=next;";
  "    }"; (* 170 *)
  "";
  "  if (count!=list->count)";
  "    {";
  "      fprintf(stderr,""AP_list_free: count %d does not match actual length %d\n"",";
  "	      list->count,count);";
  "      abort();";
  "    }";
  "";
  "  headcount--;";
  "  free(list);"; (* 180 *)
  "}";
  "";
  "";
  "";
  "/*";
  " * AP_list_size(list)";
  " *";
  " * return the number of items in an ilist";
  " *";
  " */"; (* 190 *)
  "";
  "int AP_list_size(pList list)";
  "{";
  "  return(list->count);";
  "}";
  "";
  "";
  "";
  "/*";
  " * AP_list_prepend(list,data)"; (* 200 *)
  " *";
  " * Prepend item to the front of list.";
  " *";
  " */";
  "";
  "pListitem AP_list_prepend(pList list, void *data)";
  "{";
  "  pListitem new;";
  "";
  "  new=AP_listitem_malloc();"; (* 210 *)
  "";
  "  new->data=data;";
  "  new->prev=NULL;";
  "  new->next=list->head;";
  "";
  "#ifdef CHECKS";
  "  new->list=list;";
  "#endif";
  "";
  "  if (list->head)"; (* 220 *)
  "    list->head->prev=new;";
  "";
  "  list->head=new;";
  "  if (!list->tail)";
  "    list->tail=new;";
  "";
  "  (list->count)++;";
  "";
  "  return(new);";
  "}"; (* 230 *)
  "";
  "";
  "";
  "/*";
  " * AP_list_append(list,data)";
  " *";
  " * append item to end of list";
  " *";
  " */";
  ""; (* 240 *)
  "pListitem AP_list_append(pList list, void *data)";
  "{";
  "  pListitem new;";
  "";
  "  new=AP_listitem_malloc();";
  "  new->data=data;";
  "  new->prev=list->tail;";
  "  new->next= NULL;";
  "";
  "#ifdef CHECKS"; (* 250 *)
  "  new->list= list;";
  "#endif";
  "";
  "  if (list->tail)";
  "    list->tail->next=new;";
  "  else";
  "    list->head=new;";
  "";
  "  list->tail=new;";
  "  (list->count)++;"; (* 260 *)
  "";
  "  return(new);";
  "}";
  "";
  "";
  "";
  "";
  "";
  "/*";
  " * AP_list_delete(list,data)"; (* 270 *)
  " *";
  " * delete item from list; return TRUE if successful";
  " *";
  " */";
  "";
  "int AP_list_delete(pList list, void *data)";
  "{";
  "  pListitem item;";
  "";
  "  if ((item=AP_list_search(list,data)))"; (* 280 *)
  "    {";
  "      AP_list_delete_item(list,item);";
  "      return(1);";
  "    }";
  "";
  "  return(0);";
  "}";
  "";
  "";
  ""; (* 290 *)
  "void AP_list_delete_item(pList list, pListitem item)";
  "{";
  "";
  "#ifdef CHECKS";
  "  if (item->list != list)";
  "    {";
  "      fprintf(stderr,""AP_list_delete_item: item is not in list\n"");";
  "      abort();";
  "    }";
  "#endif"; (* 300 *)
  "";
  "  /* set pointer of prior listitem */";
  "";
  "  if (item == list->head)";
  "    list->head = item->next;";
  "  else";
  "    item->prev->next = item->next;";
  "";
  "  /* set pointer of following listitem */";
  ""; (* 310 *)
  "  if (item == list->tail)";
  "    list->tail = item->prev;";
  "  else";
  "    item->next->prev = item->prev;";
  "";
  "  AP_listitem_free(item);";
  "  (list->count)--;";
  "}";
  "";
  ""; (* 320 *)
  "";
  "";
  "pListitem AP_list_head_item(pList list)";
  "{";
  "  return(list->head);";
  "}";
  "";
  "";
  "";
  "int AP_list_head(pList list, void **data)"; (* 330 *)
  "{";
  "  if (list->head)";
  "    {";
  "      *data=list->head->data;";
  "      return(1);";
  "    }";
  "  else";
  "    return(0);";
  "}";
  ""; (* 340 *)
  "";
  "";
  "int AP_list_tail(pList list, void **data)";
  "{";
  "  if (list->tail)";
  "    {";
  "      *data=list->tail->data;";
  "      return(1);";
  "    }";
  "  else"; (* 350 *)
  "    return(0);";
  "}";
  "";
  "";
  "";
  "";
  "";
  "/*";
  " * AP_list_print(str,list)";
  " *"; (* 360 *)
  " * Print out the message string followed by the";
  " * items in the list";
  " *";
  " */";
  "";
  "void AP_list_print(char *str, pList list)";
  "{";
  "  pListitem cur;";
  "";
  "  printf(""%s (%d items): "",str,list->count);"; (* 370 *)
  "";
  "  cur=list->head;";
  "  while(cur)";
  "    {";
  "      printf(""%d "",(long int)cur->data);";
  "      cur=cur->next;";
  "    }";
  "";
  "  printf(""\n"");";
  "}"; (* 380 *)
  "";
  "";
  "";
  "";
  "/*";
  " * AP_list_revprint(str,list)";
  " *";
  " * Print out the message string followed by the";
  " * items in the list";
  " *"; (* 390 *)
  " */";
  "";
  "void AP_list_revprint(char *str, pList list)";
  "{";
  "  pListitem cur;";
  "";
  "  printf(""%s (%d items): "",str,list->count);";
  "";
  "  cur=list->tail;";
  "  while(cur)"; (* 400 *)
  "    {";
  "      printf(""%d "",(long int)cur->data);";
  "      cur=cur->prev;";
  "    }";
  "";
  "  printf(""\n"");";
  "}";
  "";
  "";
  ""; (* 410 *)
  "";
  "/*";
  " * AP_list_search(list,data)";
  " *";
  " * Returns listitem if item appears in the list, otherwise NULL.";
  " *";
  " */";
  "";
  "";
  "pListitem AP_list_search(pList list, void *data)"; (* 420 *)
  "{";
  "  pListitem cur;";
  "";
  "  cur=list->head;";
  "";
  "  while (cur)";
  "    {";
  "      if (cur->data == data)";
  "        return(cur);";
  ""; (* 430 *)
  "      cur=cur->next;";
  "    }";
  "";
  "  return(NULL);";
  "}";
  "";
  "";
  "/*";
  " * AP_list_search_func(list,func,data)";
  " *"; (* 440 *)
  " * Returns listitem if func(listitem->data,data) returns true";
  " *";
  " */";
  "";
  "";
  "pListitem AP_list_search_func(pList list,";
  "			      int (*func)(void *item_data, void *fixed_data),";
  "			      void *fixed_data)";
  "{";
  "  pListitem cur;"; (* 450 *)
  "";
  "  cur=list->head;";
  "";
  "  while (cur)";
  "    {";
  "      if ( (*func)(cur->data,fixed_data) )";
  "        return(cur);";
  "";
  "      cur=cur->next;";
  "    }"; (* 460 *)
  "";
  "  return(NULL);";
  "}";
  "";
  "";
  "";
  "/*";
  " * AP_list_next(list,data,temp)";
  " *";
  " * like PList_next() except handles NULL pointers properly."; (* 470 *)
  " *";
  " * initially, pass in (void **) NULL in 'temp'";
  " * returns next list item through 'item'";
  " * returns nonzero if there is a next item";
  " *";
  " */";
  "";
  "int AP_list_next(pList list, void **data, void **temp)";
  "{";
  "  pListitem cur;"; (* 480 *)
  "";
  "  if (*temp)                             /* temp is previous item */";
  "    {";
  "      cur=(pListitem)(*temp);";
  "      cur=cur->next;";
  "    }";
  "  else                                  /* First item */";
  "    cur=list->head;";
  "";
  "  if (cur)"; (* 490 *)
  "    {";
  "      *temp=(void *)cur;";
  "      *data=cur->data;";
  "      return(1);";
  "    }";
  "  else";
  "    return(0);";
  "}";
  "";
  ""; (* 500 *)
  "/*";
  " * Compatibility routine for scorec list traversal";
  " * Does not provide any way to differentiate";
  " * between NULL in the list, and the end of the list";
  " *";
  " */";
  "";
  "void *AP_list_braindead_next(pList list, void **temp)";
  "{";
  "  void *item;"; (* 510 *)
  "";
  "  if (AP_list_next(list,&item,temp))";
  "    return(item);";
  "  else";
  "    return(NULL);";
  "}";
  "";
  "";
  "";
  "/*"; (* 520 *)
  " * AP_list_duplicate(list)";
  " *";
  " * return a copy of the list";
  " * (Note: caller is responsible for freeing this list)";
  " *";
  " */";
  "";
  "pList AP_list_duplicate(pList list)";
  "{";
  "  pList newlist;"; (* 530 *)
  "  pListitem cur,new,prev;";
  "";
  "  newlist=AP_list_new();";
  "  prev=NULL;";
  "";
  "  cur=list->head;";
  "  while(cur)";
  "    {";
  "      new=AP_listitem_malloc();";
  "      new->data=cur->data;"; (* 540 *)
  "      new->prev=prev;";
  "";
  "      if (prev)";
  "	prev->next=new;";
  "      else";
  "	newlist->head=new;";
  "";
  "      prev=new;";
  "";
  "      cur=cur->next;"; (* 550 *)
  "    }";
  "";
  "  if (prev)";
  "    prev->next=NULL;";
  "";
  "  newlist->tail=prev;";
  "  newlist->count=list->count;";
  "  return(newlist);";
  "}";
  ""; (* 560 *)
  "";
  "";
  "int AP_list_apply(pList list,";
  "		  int (*func)(void *item_data, void *fixed_data),";
  "		  void *fixed_data)";
  "{";
  "  pListitem cur;";
  "  int total;";
  "";
  "  total=0;"; (* 570 *)
  "  cur=list->head;";
  "";
  "  while (cur)";
  "    {";
  "      total += (*func)(cur->data,fixed_data);";
  "";
  "      cur=cur->next;";
  "    }";
  "";
  "  return(total);"; (* 580 *)
  "}";
  "";
  "";
  "";
  "";
  "/*";
  " * main for debugging";
  " *";
  " */";
  ""; (* 590 *)
  "";
  "#ifdef LISTMAIN";
  "";
  "int main()";
  "{";
  "  pList mylist, list2;";
  "  int i;";
  "  void *temp,*item;";
  "  pListitem next;";
  ""; (* 600 *)
  "  mylist=AP_list_new();";
  "";
  "  for (i=1; i<10; i++)";
  "    {";
  "      AP_list_prepend(mylist,(void *)i);";
  "      AP_list_print(""current"",mylist);";
  "      AP_list_revprint(""    rev"",mylist);";
  "    }";
  "";
  "  printf(""Size %d\n"",AP_list_size(mylist));"; (* 610 *)
  "";
  "  for (i=10; i<15; i++)";
  "    {";
  "      AP_list_append(mylist,(void *)i);";
  "      AP_list_print(""new"",mylist);";
  "      AP_list_revprint(""    rev"",mylist);";
  "    }";
  "";
  "  AP_list_delete(mylist,(void *)5);";
  "  AP_list_print(""less 5"",mylist);"; (* 620 *)
  "  AP_list_revprint(""  rev"",mylist);";
  "";
  "  AP_list_delete(mylist,(void *)9);";
  "  AP_list_print(""less 9"",mylist);";
  "  AP_list_revprint(""  rev"",mylist);";
  "";
  "  AP_list_delete(mylist,(void *)14);";
  "  AP_list_print(""less 14"",mylist);";
  "  AP_list_revprint(""  rev"",mylist);";
  ""; (* 630 *)
  "  AP_list_delete(mylist,(void *)2);";
  "  AP_list_print(""less 2"",mylist);";
  "  AP_list_revprint(""  rev"",mylist);";
  "";
  "  if (!AP_list_delete(mylist,(void *)0))";
  "    printf(""(did not delete 0)\n"");";
  "  else";
  "    printf(""ERROR - found 0\n"");";
  "  AP_list_print(""less 0"",mylist);";
  "  AP_list_revprint(""  rev"",mylist);"; (* 640 *)
  "";
  "  if (AP_list_search(mylist,(void *)4))";
  "    printf(""Found 4\n"");";
  "  else";
  "    printf(""Did not find 4\n"");";
  "";
  "  if (AP_list_search(mylist,(void *)9))";
  "    printf(""Found 9\n"");";
  "  else";
  "    printf(""Did not find 9\n"");"; (* 650 *)
  "";
  "  printf(""Traversal by AP_list_next()\n"");";
  "  temp=NULL;";
  "  while (AP_list_next(mylist,&item,&temp))";
  "    printf(""  Got item %d\n"",(int)item);";
  "";
  "  printf(""Traversal by AP_listitem_next()\n"");";
  "  for (item=AP_list_head_item(mylist); item; item=AP_listitem_next(item))";
  "    printf(""  Got item %d\n"",(int)(AP_listitem_data(item)));";
  ""; (* 660 *)
  "";
  "  list2=AP_list_duplicate(mylist);";
  "  AP_list_print(""Original list"",mylist);";
  "  AP_list_revprint(""  rev"",mylist);";
  "  AP_list_print(""Duplicate    "",list2);";
  "  AP_list_revprint(""  rev"",list2);";
  "";
  "  AP_list_append(list2,(void *)99);";
  "  AP_list_print(""Dup add 99   "",list2);";
  "  AP_list_revprint(""  rev"",list2);"; (* 670 *)
  "";
  "";
  "  printf(""Traversal by AP_listitem_next(), deleting\n"");";
  "  i=0;";
  "  for (item=AP_list_head_item(list2); item; )";
  "    {";
  "      printf(""  Got item %d"",(int)(AP_listitem_data(item)));";
  "";
  "      next=AP_listitem_next(item);";
  ""; (* 680 *)
  "      if (i%2)";
  "	{";
  "	  AP_list_delete_item(list2,item);";
  "	  printf("" - deleted\n"");";
  "	}";
  "      else";
  "	printf(""\n"");";
  "";
  "      item=next;";
  "      i++;"; (* 690 *)
  "    }";
  "";
  "  AP_list_print(""After delete-traversal"",list2);";
  "";
  "  AP_list_free(mylist);";
  "  AP_list_print(""After del    "",list2);";
  "  AP_list_revprint(""  rev"",list2);";
  "";
  "  AP_list_free(list2);";
  ""; (* 700 *)
  "  AP_listitem_verify();";
  "";
  "  return(0);";
  "}";
  "#endif"
].

(** mpi.c 1-389: the whole file. *)
Definition s_mpi_c : list string := [
  "#include ""mpiP.h""";
  "#include ""mpi.h""";
  "#include ""type.h""";
  "";
  "/****************************************************************************/";
  "";
  "static int initialized=0;";
  "";
  "";
  "/* Store fortran pointer values here */"; (* 10 *)
  "";
  "static int *f_MPI_STATUS_IGNORE;";
  "static int *f_MPI_STATUSES_IGNORE;";
  "static int *f_MPI_IN_PLACE;";
  "";
  "static char *mpi_version_string=""mpi-serial 2.5.0"";";
  "";
  "";
  "/****************************************************************************/";
  ""; (* 20 *)
  "";
  "/*";
  " * INIT/FINALIZE";
  " *";
  " */";
  "";
  "";
  "";
  "int FC_FUNC( mpi_init_fort , MPI_INIT_FORT)";
  "                          (int *f_MPI_COMM_WORLD,"; (* 30 *)
  "                           int *f_MPI_ANY_SOURCE, int *f_MPI_ANY_TAG,";
  "			   int *f_MPI_PROC_NULL, int *f_MPI_ROOT,";
  "                           int *f_MPI_COMM_NULL, int *f_MPI_REQUEST_NULL,";
  "			   int *f_MPI_GROUP_NULL, int *f_MPI_GROUP_EMPTY,";
  "			   int *f_MPI_UNDEFINED,";
  "                           int *f_MPI_MAX_ERROR_STRING,";
  "                           int *f_MPI_MAX_PROCESSOR_NAME,";
  "                           int *f_MPI_STATUS_SIZE,";
  "                           int *f_MPI_SOURCE, int *f_MPI_TAG, int *f_MPI_ERROR,";
  "			   int *f_status,"; (* 40 *)
  "			   int *fsource, int *ftag, int *ferror,";
  "                           int *f_MPI_INTEGER, void *fint1, void *fint2,";
  "                           int *f_MPI_LOGICAL, void *flog1, void *flog2,";
  "                           int *f_MPI_REAL, void *freal1, void *freal2,";
  "                           int *f_MPI_DOUBLE_PRECISION,";
  "			   void *fdub1, void *fdub2,";
  "			   int *f_MPI_COMPLEX, void *fcomp1, void *fcomp2,";
  "                           int *ierror)";
  "{";
  "  int err;"; (* 50 *)
  "  int size;";
  "  int offset;";
  "";
  "  *ierror=MPI_Init(NULL,NULL);";
  "";
  "  err=0;";
  "";
  "  /*";
  "   * These 3 macros compare things from mpif.h (as passed in by the f_";
  "   * arguments) to the values in C (from #including mpi.h)."; (* 60 *)
  "   *";
  "   * Unfortunately, this kind of thing is done most easily in a nasty";
  "   * looking macto.";
  "   *";
  "   */";
  "";
  "";
  "  /*";
  "   * verify_eq";
  "   *   compare value of constants in C and fortran"; (* 70 *)
  "   *   i.e. compare *f_<name> to <name>";
  "   */";
  "";
  "#define verify_eq(name)  \";
  "  if (*f_##name != name) \";
  "    { fprintf(stderr,""mpi-serial: mpi_init_fort: %s not consistent "" \";
  "                     ""between mpif.h (%d) and mpi.h (%d)\n"",\";
  "                     #name,*f_##name,name); \";
  "      err=1; }";
  ""; (* 80 *)
  "#define verify_eq_warn(name)  \";
  "  if (*f_##name != name) \";
  "    { fprintf(stderr,""mpi-serial: mpi_init_fort: warning: %s not consistent "" \";
  "                     ""between mpif.h (%d) and mpi.h (%d)\n"",\";
  "                     #name,*f_##name,name); \";
  "    }";
  "";
  "";
  "  /*";
  "   * verify_size"; (* 90 *)
  "   *   verify that the type name in fortran has the correct";
  "   *   value (i.e. the size of that data type).";
  "   *   Determine size by subtracting the pointer values of two";
  "   *   consecutive array locations.";
  "   */";
  "";
  "#define verify_size(name,p1,p2) \";
  "  if ( (size=((char *)(p2) - (char *)(p1))) != Simpletype_length( \";
  "              (*(Datatype*)mpi_handle_to_datatype(*f_##name))->pairs[0].type) ) \";
  "    { fprintf(stderr,""mpi-serial: mpi_init_fort: mpif.h %s (%d) "" \"; (* 100 *)
  "                     ""does not match actual fortran size (%d)\n"", \";
  "                     #name,*f_##name,size); \";
  "      err=1; }";
  "";
  "  /*";
  "   * verify_field";
  "   *   check the struct member offsets for MPI_Status vs. the";
  "   *   fortan integer array offsets.  E.g. the location of";
  "   *   status->MPI_SOURCE should be the same as STATUS(MPI_SOURCE)";
  "   */"; (* 110 *)
  "";
  "#define verify_field(name) \";
  "  { offset= (char *)&((MPI_Status *)f_status)->name - (char *)f_status; \";
  "    if ( offset != (*f_##name-1)*sizeof(int) ) \";
  "    { fprintf(stderr,""mpi-serial: mpi_init_fort: mpif.h %s (%d) (%d bytes) "" \";
  "                     ""is inconsistent w/offset in MPI_Status (%d bytes)\n"", \";
  "                    #name,*f_##name,(*f_##name-1)*sizeof(int),offset); \";
  "      err=1; }}";
  "";
  ""; (* 120 *)
  "";
  "  verify_eq(MPI_COMM_WORLD);";
  "  verify_eq(MPI_ANY_SOURCE);";
  "  verify_eq(MPI_ANY_TAG);";
  "  verify_eq(MPI_PROC_NULL);";
  "  verify_eq(MPI_ROOT);";
  "  verify_eq(MPI_COMM_NULL);";
  "  verify_eq(MPI_REQUEST_NULL);";
  "  verify_eq(MPI_GROUP_NULL);";
  "  verify_eq(MPI_GROUP_EMPTY);"; (* 130 *)
  "  verify_eq(MPI_UNDEFINED);";
  "  verify_eq(MPI_MAX_ERROR_STRING);";
  "  verify_eq(MPI_MAX_PROCESSOR_NAME);";
  "";
  "  verify_eq(MPI_STATUS_SIZE);";
  "  verify_field(MPI_SOURCE);";
  "  verify_field(MPI_TAG);";
  "  verify_field(MPI_ERROR);";
  "";
  "  verify_eq(MPI_INTEGER);"; (* 140 *)
  "  verify_size(MPI_INTEGER,fint1,fint2);";
  "";
  "  verify_size(MPI_LOGICAL,flog1,flog2);";
  "";
  "  verify_eq_warn(MPI_REAL);";
  "  verify_size(MPI_REAL,freal1,freal2);";
  "";
  "  verify_eq(MPI_DOUBLE_PRECISION);";
  "  verify_size(MPI_DOUBLE_PRECISION,fdub1,fdub2);";
  ""; (* 150 *)
  "  verify_size(MPI_COMPLEX,fcomp1,fcomp2);";
  "";
  "  if (err)";
  "    abort();";
  "  return err;";
  "}";
  "";
  "int MPI_Init_thread(int *argc, char **argv[], int required, int *provided)";
  "{";
  "    *provided = required;"; (* 160 *)
  "    return MPI_Init(argc, argv);";
  "}";
  "";
  "int MPI_Init(int *argc, char **argv[])";
  "{";
  "  MPI_Comm my_comm_world;";
  "";
  "  if (sizeof(MPI_Aint) < sizeof(void *))";
  "    {";
  "      fprintf(stderr, ""mpi-serial: MPI_Init: """; (* 170 *)
  "                      ""MPI_Aint is not large enough for void *\n"");";
  "      abort();";
  "    }";
  "";
  "  my_comm_world=mpi_comm_new();";
  "";
  "  if (my_comm_world != MPI_COMM_WORLD)";
  "    {";
  "      fprintf(stderr,""MPI_Init: conflicting MPI_COMM_WORLD\n"");";
  "      abort();"; (* 180 *)
  "    }";
  "";
  "  // call this to have the fortran routine call back and save";
  "  // values for f_MPI_STATUS_IGNORE and f_MPI_STATUSES_IGNORE";
  "  FC_FUNC(mpi_get_fort_pointers,MPI_GET_FORT_POINTERS)();  // the () are important";
  "";
  "  initialized=1;";
  "  return(MPI_SUCCESS);";
  "}";
  ""; (* 190 *)
  "";
  "/*********/";
  "";
  "";
  "int FC_FUNC( mpi_finalize, MPI_FINALIZE )(int *ierror)";
  "{";
  "  *ierror=MPI_Finalize();";
  "  return(MPI_SUCCESS);";
  "}";
  ""; (* 200 *)
  "";
  "/*";
  " * MPI_Finalize()";
  " *";
  " * this library doesn't support re-initializing MPI, so";
  " * the finalize will just leave everythign as it is...";
  " *";
  " */";
  "";
  ""; (* 210 *)
  "int MPI_Finalize(void)";
  "{";
  "  initialized=0;";
  "";
  "  mpi_destroy_handles();";
  "";
  "  return(MPI_SUCCESS);";
  "}";
  "";
  ""; (* 220 *)
  "/*********/";
  "";
  "";
  "int FC_FUNC( mpi_abort , MPI_ABORT )(int *comm, int *errorcode, int *ierror)";
  "{";
  "  *ierror=MPI_Abort( *comm, *errorcode);";
  "  return(MPI_SUCCESS);";
  "}";
  "";
  ""; (* 230 *)
  "";
  "int MPI_Abort(MPI_Comm comm, int errorcode)";
  "{";
  "  fprintf(stderr,""MPI_Abort: error code = %d\n"",errorcode);";
  "  exit(errorcode);";
  "}";
  "";
  "";
  "/*********/";
  ""; (* 240 *)
  "";
  "";
  "int FC_FUNC( mpi_error_string , MPI_ERROR_STRING)";
  "                             (int *errorcode, char *string,";
  "			      int *resultlen, int *ierror)";
  "{";
  "  *ierror=MPI_Error_string(*errorcode, string, resultlen);";
  "  return(MPI_SUCCESS);";
  "}";
  ""; (* 250 *)
  "";
  "int MPI_Error_string(int errorcode, char *string, int *resultlen)";
  "{";
  "  sprintf(string,""MPI Error: code %d\n"",errorcode);";
  "  *resultlen=strlen(string);";
  "";
  "  return(MPI_SUCCESS);";
  "}";
  "";
  ""; (* 260 *)
  "/*********/";
  "";
  "";
  "int FC_FUNC( mpi_get_processor_name , MPI_GET_PROCESSOR_NAME )";
  "                          (char *name, int *resultlen, int *ierror)";
  "{";
  "  *ierror=MPI_Get_processor_name(name,resultlen);";
  "  return(MPI_SUCCESS);";
  "}";
  ""; (* 270 *)
  "";
  "int MPI_Get_processor_name(char *name, int *resultlen)";
  "{";
  "  int ret;";
  "";
  "  ret=gethostname(name,MPI_MAX_PROCESSOR_NAME);";
  "";
  "  if (ret!=0)";
  "    strncpy(name,""unknown host name"",MPI_MAX_PROCESSOR_NAME);";
  ""; (* 280 *)
  "";
  "  name[MPI_MAX_PROCESSOR_NAME-1]='\0';  /* make sure NULL terminated */";
  "  *resultlen=strlen(name);";
  "";
  "  return(MPI_SUCCESS);";
  "}";
  "";
  "";
  "/*********/";
  ""; (* 290 *)
  "";
  "int FC_FUNC( mpi_initialized , MPI_INITIALIZED )(int *flag, int *ierror)";
  "{";
  "  *ierror=MPI_Initialized(flag);";
  "  return(MPI_SUCCESS);";
  "}";
  "";
  "";
  "int MPI_Initialized(int *flag)";
  "{"; (* 300 *)
  "  *flag= initialized;";
  "";
  "  return(MPI_SUCCESS);";
  "}";
  "";
  "";
  "/**********/";
  "";
  "int MPI_Get_library_version(char *version, int *resultlen)";
  "{"; (* 310 *)
  "";
  "    strncpy(version,mpi_version_string,MPI_MAX_LIBRARY_VERSION_STRING);";
  "    // Make sure it is null terminated";
  "    version[MPI_MAX_LIBRARY_VERSION_STRING-1]='\0';";
  "    *resultlen=strlen(version);";
  "";
  "    return(MPI_SUCCESS);";
  "}";
  "";
  ""; (* 320 *)
  "void FC_FUNC( mpi_get_library_version, MPI_GET_LIBRARY_VERSION) (char *version, int *resultlen, int *ierror)";
  "{";
  "  MPI_Get_library_version(version,resultlen);";
  "";
  "  // Sanity check before the memset()";
  "  if ( (*resultlen) > (MPI_MAX_LIBRARY_VERSION_STRING-1) )";
  "    abort();";
  "";
  "  memset(version+(*resultlen),' ',MPI_MAX_LIBRARY_VERSION_STRING-(*resultlen));";
  ""; (* 330 *)
  "  *ierror=MPI_SUCCESS;";
  "}";
  "";
  "";
  "";
  "int MPI_Get_Version(int *mpi_vers, int *mpi_subvers)";
  "{";
  "    *mpi_vers = 1;";
  "    *mpi_subvers = 0;";
  ""; (* 340 *)
  "    return (MPI_SUCCESS);";
  "}";
  "";
  "/**********/";
  "void FC_FUNC( mpi_get_version, MPI_GET_VERSION )(int *mpi_vers, int *mpi_subvers, int *ierror)";
  "{";
  "  MPI_Get_Version(mpi_vers, mpi_subvers);";
  "";
  "  *ierror=MPI_SUCCESS;";
  ""; (* 350 *)
  "}";
  "";
  "/**********/";
  "";
  "";
  "void FC_FUNC( mpi_save_fort_pointers, MPI_SAVE_FORT_POINTERS ) (int *status, int *statuses, int *in_place)";
  "{";
  "  f_MPI_STATUS_IGNORE=status;";
  "  f_MPI_STATUSES_IGNORE=statuses;";
  "  f_MPI_IN_PLACE=in_place;"; (* 360 *)
  "}";
  "";
  "";
  "";
  "MPI_Status *mpi_c_status(int *status)";
  "{";
  "  if (status==f_MPI_STATUS_IGNORE)";
  "    return(MPI_STATUS_IGNORE);";
  "";
  "  return((MPI_Status *)status);"; (* 370 *)
  "}";
  "";
  "";
  "MPI_Status *mpi_c_statuses(int *statuses)";
  "{";
  "  if (statuses==f_MPI_STATUSES_IGNORE)";
  "    return(MPI_STATUSES_IGNORE);";
  "";
  "  return((MPI_Status *)statuses);";
  "}"; (* 380 *)
  "";
  "";
  "void *mpi_c_in_place(void *buffer)";
  "{";
  "  if (buffer==(void *)f_MPI_IN_PLACE)";
  "    return(MPI_IN_PLACE);";
  "";
  "  return(buffer);";
  "}"
].

(** op.c 1-30: the whole file. *)
Definition s_op_c : list string := [
  "#include ""mpi.h""";
  "#include ""mpiP.h""";
  "/* Because operations based on one processor are essentially no operation,";
  " * all MPI_Ops are handled as null ops.  Therefore, returning 0 (OP_NULL)";
  " * suffices here.";
  " */";
  "";
  "int FC_FUNC(mpi_op_create, MPI_OP_CREATE)(MPI_User_function *func, int * commute, int * op, int * ierr)";
  "{";
  "  *ierr = MPI_Op_create(func, *commute, op);"; (* 10 *)
  "  return(MPI_SUCCESS);";
  "}";
  "";
  "int MPI_Op_create(MPI_User_function *function, int commute, MPI_Op *op)";
  "{";
  "  *op = 0;";
  "  return MPI_SUCCESS;";
  "}";
  "";
  "int FC_FUNC(mpi_op_free, MPI_OP_FREE)(int * op, int * ierr)"; (* 20 *)
  "{";
  "  *ierr = MPI_Op_free(op);";
  "  return(MPI_SUCCESS);";
  "}";
  "";
  "int MPI_Op_free(MPI_Op * op)";
  "{";
  "  return MPI_SUCCESS;";
  "}";
  "" (* 30 *)
].

(** pack.c 1-151: the whole file. *)
Definition s_pack_c : list string := [
  "#include <stdio.h>";
  "#include <stdlib.h>";
  "#include <string.h>";
  "#include ""mpiP.h""";
  "#include ""type.h""";
  "";
  "/*";
  " *";
  " */";
  ""; (* 10 *)
  "";
  "int FC_FUNC( mpi_pack , MPI_PACK )";
  "     ( void *inbuf, int *incount, int *datatype,";
  "       void *outbuf, int *outsize, int *position, int *comm, int *ierror)";
  "{";
  "  *ierror=MPI_Pack(inbuf, *incount,* datatype,";
  "  	           outbuf, *outsize, position, *comm);";
  "  return MPI_SUCCESS;";
  "}";
  ""; (* 20 *)
  "";
  "";
  "int MPI_Pack( void *inbuf, int incount, MPI_Datatype datatype,";
  "              void *outbuf, int outsize, int *position, MPI_Comm comm)";
  "{";
  "  int ret;";
  "";
  "  Datatype type_ptr = *(Datatype*) mpi_handle_to_datatype(datatype);";
  "  Comm* comm_ptr = mpi_handle_to_ptr(comm);";
  ""; (* 30 *)
  "  ret = Pack(inbuf, incount, type_ptr, outbuf, outsize, position, comm_ptr);";
  "";
  "  return ret;";
  "}";
  "";
  "";
  "";
  "int Pack(void *inbuf, int incount, Datatype type,";
  "              void *outbuf, int outsize, int *position, Comm * comm)";
  "{"; (* 40 *)
  "  int i, j;";
  "  MPI_Aint extent;";
  "  //check that buffer is large enough";
  "  Type_extent(type, &extent);";
  "  for (i = 0; i < incount; i++)";
  "  {";
  "    for (j = 0; j < type->count; j++)";
  "    {";
  "      if ((*position) + Simpletype_length(type->pairs[j].type) > outsize)";
  "      {"; (* 50 *)
  "        printf(""MPI_Pack: data exceeds buffer size\n"");";
  "        exit(1);";
  "      }";
  "      memcpy(((char*) outbuf)+(*position), inbuf+type->pairs[j].disp + (extent*i),";
  "             Simpletype_length(type->pairs[j].type));";
  "      *position += Simpletype_length(type->pairs[j].type);";
  "    }";
  "  }";
  "  return MPI_SUCCESS;";
  "}"; (* 60 *)
  "";
  "int Pack_size(int incount, Datatype datatype,";
  "              Comm * comm, MPI_Aint * size)";
  "{";
  "    int i;";
  "    *size = 0;";
  "    //sum up all sizes";
  "    for(i = 0; i < datatype->count; i++)";
  "    {";
  "        *size += Simpletype_length(datatype->pairs[i].type);"; (* 70 *)
  "    }";
  "    *size *= incount;";
  "    printf(""Size = %d\n"", *size);";
  "  return MPI_SUCCESS;";
  "}";
  "";
  "int FC_FUNC( mpi_pack_size, MPI_PACK_SIZE )(int * incount, int * datatype,";
  "                                          int * comm, MPI_Aint * size, int *ierr)";
  "{";
  "  *ierr = MPI_Pack_size(*incount, *datatype, *comm, size);"; (* 80 *)
  "  return MPI_SUCCESS;";
  "}";
  "";
  "int MPI_Pack_size(int incount, MPI_Datatype datatype,";
  "                  MPI_Comm comm, MPI_Aint * size)";
  "{";
  "  int ret;";
  "  Datatype type_ptr = *(Datatype*) mpi_handle_to_datatype(datatype);";
  "  Comm * comm_ptr = mpi_handle_to_ptr(comm);";
  ""; (* 90 *)
  "  ret = Pack_size(incount, type_ptr, comm_ptr, size);";
  "";
  "  return ret;";
  "}";
  "";
  "";
  "";
  "/*";
  " *";
  " */"; (* 100 *)
  "";
  "";
  "int FC_FUNC( mpi_unpack , MPI_UNPACK )";
  "     ( void *inbuf, int *insize, int *position,";
  "       void *outbuf, int *outcount, int *datatype,";
  "       int *comm, int *ierror )";
  "{";
  "  *ierror=MPI_Unpack( inbuf, *insize, position,";
  "                      outbuf, *outcount, *datatype, *comm);";
  "  return MPI_SUCCESS;"; (* 110 *)
  "}";
  "";
  "";
  "int MPI_Unpack(void * inbuf, int insize, int * position, void * outbuf,";
  "               int outcount, MPI_Datatype type, MPI_Comm comm)";
  "{";
  "  int ret;";
  "  Datatype type_ptr = *(Datatype*) mpi_handle_to_datatype(type);";
  "  Comm * comm_ptr = mpi_handle_to_ptr(comm);";
  ""; (* 120 *)
  "  ret = Unpack(inbuf, insize, position, outbuf, outcount, type_ptr, comm_ptr);";
  "";
  "  return ret;";
  "}";
  "";
  "int Unpack(void * inbuf, int insize, int * position, void *outbuf,";
  "                int outcount, Datatype type, Comm* comm)";
  "{";
  "  int i, j;";
  "  MPI_Aint extent;"; (* 130 *)
  "";
  "  Type_extent(type, &extent);";
  "";
  "  for (i = 0; i < outcount; i++)";
  "  {";
  "    for (j = 0; j < type->count; j++)";
  "    {";
  "      if ((*position) + Simpletype_length(type->pairs[j].type) > insize)";
  "      {";
  "        printf(""MPI_Unpack: Data exceeds buffer size\n"");"; (* 140 *)
  "	exit(1);";
  "      }";
  "      memcpy(outbuf+type->pairs[j].disp + (extent*i), ((char*) inbuf)+(*position) ,";
  "             Simpletype_length(type->pairs[j].type));";
  "      *position += Simpletype_length(type->pairs[j].type);";
  "    }";
  "  }";
  "  return MPI_SUCCESS;";
  "}";
  ""; (* 150 *)
  ""
].

(** probe.c 1-90: the whole file. *)
Definition s_probe_c : list string := [
  "//probe.c";
  "#include ""mpiP.h""";
  "";
  "static int mpi_match_send(void *r, void *tag)";
  "{";
  "  return( *((int *)tag) == MPI_ANY_TAG ||";
  "	  *((int *)tag) == ((Req *)r)->tag );";
  "}";
  "";
  "int FC_FUNC(mpi_iprobe, MPI_IPROBE)(int * source, int * tag, int * comm,"; (* 10 *)
  "                                  int * flag, int *status, int * ierr)";
  "{";
  "  *ierr = MPI_Iprobe(*source, *tag, *comm, flag, mpi_c_status(status));";
  "  return(MPI_SUCCESS);";
  "}";
  "";
  "/* Iprobe";
  " * Search for existing message, return status about it";
  " */";
  ""; (* 20 *)
  "int MPI_Iprobe(int source, int tag, MPI_Comm comm, int *flag,";
  "               MPI_Status *status)";
  "";
  "{";
  "  pListitem match;";
  "  Comm *mycomm;";
  "  Req *sreq;";
  "";
  "  mycomm=mpi_handle_to_ptr(comm);         /* mycomm=(Comm *)comm; */";
  ""; (* 30 *)
  "#ifdef INFO";
  "  fflush(stdout);";
  "  fprintf(stderr,""MPI_IProbev: Comm=%d  tag=%d  count=%d type=%d\n"",";
  "         mycomm->num,tag,count,datatype);";
  "#endif";
  "";
  "";
  "  if (source!=0 && source!=MPI_ANY_SOURCE)";
  "    {";
  "      fprintf(stderr,""MPI_Irecv: bad source %d\n"",source);"; (* 40 *)
  "      abort();";
  "    }";
  "";
  "  match=AP_list_search_func(mycomm->sendlist,mpi_match_send,&tag);";
  "";
  "  *flag= (match==NULL ? 0:1 );";
  "";
  "  if (*flag)";
  "    {";
  "      sreq=(Req *)AP_listitem_data(match);"; (* 50 *)
  "";
  "      if (status!=MPI_STATUS_IGNORE)";
  "	{";
  "	  status->MPI_SOURCE=0  ;";
  "	  status->MPI_TAG= sreq->tag;";
  "	}";
  "    }";
  "";
  "  return(MPI_SUCCESS);";
  "}"; (* 60 *)
  "";
  "";
  "//probe:  wait for message, and return status";
  "// (either message will immediately be available, or deadlock.";
  "";
  "int FC_FUNC(mpi_probe,MPI_PROBE)(int *source, int *tag, int *comm, int *status,";
  "			     int *ierr)";
  "{";
  "  *ierr=MPI_Probe(*source,*tag,*comm,mpi_c_status(status));";
  "  return(MPI_SUCCESS);"; (* 70 *)
  "}";
  "";
  "";
  "";
  "int MPI_Probe(int source, int tag, MPI_Comm comm, MPI_Status *status)";
  "{";
  "";
  "  int flag;";
  "";
  "  MPI_Iprobe(source,tag,comm,&flag,status);"; (* 80 *)
  "";
  "  if (!flag)";
  "    {";
  "      fprintf(stderr,""MPI_Probe: no existing match, deadlock\n"");";
  "      abort();";
  "    }";
  "";
  "  return(MPI_SUCCESS);";
  "}";
  "" (* 90 *)
].

(** recv.c 1-166: the whole file. *)
Definition s_recv_c : list string := [
  "";
  "#include ""mpiP.h""";
  "";
  "";
  "";
  "/*";
  " * RECEIVING";
  " *";
  " */";
  ""; (* 10 *)
  "";
  "";
  "static int mpi_match_send(void *r, void *tag)";
  "{";
  "    return( *((int *)tag) == MPI_ANY_TAG ||";
  "	  *((int *)tag) == ((Req *)r)->tag );";
  "}";
  "";
  "";
  ""; (* 20 *)
  "/*";
  " *";
  " */";
  "";
  "";
  "";
  "int FC_FUNC( mpi_irecv , MPI_IRECV )(void *buf, int *count, int *datatype,";
  "				   int *source, int *tag, int *comm,";
  "				   int *request, int *ierror)";
  "{"; (* 30 *)
  "";
  "  *ierror=MPI_Irecv(buf,*count,*datatype,*source,*tag,";
  "		    *comm, (void *)request);";
  "  return MPI_SUCCESS;";
  "";
  "}";
  "";
  "";
  "";
  "int MPI_Irecv(void *buf, int count, MPI_Datatype datatype,"; (* 40 *)
  "	      int source, int tag, MPI_Comm comm, MPI_Request *request)";
  "";
  "{";
  "  pListitem match;";
  "  Comm *mycomm;";
  "  Req *rreq, *sreq;";
  "";
  "  mycomm=mpi_handle_to_ptr(comm);         /* mycomm=(Comm *)comm; */";
  "";
  "#ifdef INFO"; (* 50 *)
  "  fflush(stdout);";
  "  fprintf(stderr,""MPI_Irecv: Comm=%d  tag=%d  count=%d type=%d\n"",";
  "	 mycomm->num,tag,count,datatype);";
  "#endif";
  "";
  "  if (source!=0 && source!=MPI_ANY_SOURCE && source!=MPI_PROC_NULL)";
  "    {";
  "      fprintf(stderr,""MPI_Irecv: bad source %d\n"",source);";
  "      abort();";
  "    }"; (* 60 *)
  "";
  "  mpi_alloc_handle(request,(void **)&rreq);";
  "  rreq->type = datatype;";
  "  rreq->count = count;";
  "  if (source==MPI_PROC_NULL)";
  "    {";
  "      rreq->complete=1;";
  "      rreq->source=MPI_PROC_NULL;";
  "      rreq->tag=MPI_ANY_TAG;";
  ""; (* 70 *)
  "      return(MPI_SUCCESS);";
  "    }";
  "";
  "";
  "  if (( match=AP_list_search_func(mycomm->sendlist,mpi_match_send,&tag) ))";
  "    {";
  "      sreq=(Req *)AP_listitem_data(match);";
  "      AP_list_delete_item(mycomm->sendlist,match);";
  "";
  "//      memcpy(buf,sreq->buf,count * datatype);"; (* 80 *)
  "      copy_data2(sreq->buf, count, datatype, buf, count, datatype);";
  "      rreq->complete=1;";
  "      rreq->source=0;";
  "      rreq->tag=sreq->tag;                   /* in case tag was MPI_ANY_TAG */";
  "";
  "      sreq->complete=1;";
  "";
  "#ifdef DEBUG";
  "      printf(""Completion(recv) value=%d tag=%d\n"",";
  "	     *((int *)buf),rreq->tag);"; (* 90 *)
  "#endif";
  "";
  "      return(MPI_SUCCESS);";
  "    }";
  "";
  "  rreq->buf=buf;";
  "  rreq->tag=tag;";
  "  rreq->complete=0;";
  "  rreq->listitem=AP_list_append(mycomm->recvlist,rreq);";
  ""; (* 100 *)
  "#ifdef INFO";
  "  print_list(mycomm->recvlist,""recvlist for comm "",mycomm->num);";
  "#endif";
  "";
  "  return(MPI_SUCCESS);";
  "}";
  "";
  "";
  "/*********/";
  ""; (* 110 *)
  "";
  "int FC_FUNC( mpi_recv , MPI_RECV )(void *buf, int *count, int *datatype,";
  "				 int *source, int *tag, int *comm,";
  "				 int *status, int *ierror)";
  "{";
  "  *ierror=MPI_Recv(buf,*count,*datatype,*source,*tag,*comm,";
  "		   mpi_c_status(status));";
  "  return MPI_SUCCESS;";
  "}";
  ""; (* 120 *)
  "";
  "";
  "int MPI_Recv(void *buf, int count, MPI_Datatype datatype, int source,";
  "             int tag, MPI_Comm comm, MPI_Status *status)";
  "{";
  "  MPI_Request request;";
  "";
  "#ifdef INFO";
  "  fflush(stdout);";
  "  fprintf(stderr,""MPI_Recv: "");"; (* 130 *)
  "#endif";
  "";
  "";
  "  MPI_Irecv(buf,count,datatype,source,tag,comm,&request);";
  "  MPI_Wait(&request,status);";
  "";
  "  if (status!=MPI_STATUS_IGNORE)";
  "    status->get_count = count;   // rml: shouldn't this depend on send?";
  "";
  "  return(MPI_SUCCESS);"; (* 140 *)
  "}";
  "";
  "";
  "";
  "#ifdef INFO";
  "";
  "int print_item(void *item, void *data)";
  "{";
  "  fprintf(stderr,""%d  "", ((Req *)item)->tag);";
  "  return(0);"; (* 150 *)
  "}";
  "";
  "";
  "int print_list(pList list, char *msg, int num)";
  "{";
  "  fflush(stdout);";
  "  fprintf(stderr,""%s %d: "",msg,num);";
  "";
  "  AP_list_apply(list,print_item,NULL);";
  ""; (* 160 *)
  "  fprintf(stderr,""\n"");";
  "  return(0);";
  "}";
  "";
  "";
  "#endif"
].

(** req.c 1-310: the whole file. *)
Definition s_req_c : list string := [
  "#include ""mpiP.h""";
  "";
  "";
  "/*";
  " * COMPLETION";
  " */";
  "";
  "";
  "";
  "int FC_FUNC( mpi_test , MPI_TEST)(int *request, int *flag, int *status,"; (* 10 *)
  "                                int *ierror)";
  "{";
  "  *ierror=MPI_Test( (void *)request ,flag,mpi_c_status(status));";
  "  return MPI_SUCCESS;";
  "}";
  "";
  "";
  "";
  "int MPI_Test(MPI_Request *request, int *flag, MPI_Status *status)";
  "{"; (* 20 *)
  "  Req *req;";
  "";
  "  if (*request==MPI_REQUEST_NULL)";
  "    {";
  "      if (status!=MPI_STATUS_IGNORE)";
  "	{";
  "	  status->MPI_TAG= MPI_ANY_TAG;";
  "	  status->MPI_SOURCE= MPI_ANY_SOURCE;";
  "	}";
  "      *flag=1;"; (* 30 *)
  "      return(MPI_SUCCESS);";
  "    }";
  "";
  "";
  "  req=mpi_handle_to_ptr(*request);";
  "";
  "  *flag=req->complete;";
  "";
  "  if (*flag)";
  "    {"; (* 40 *)
  "      if (status!=MPI_STATUS_IGNORE)";
  "	{";
  "	  status->MPI_SOURCE= req->source;";
  "	  status->MPI_TAG= req->tag;";
  "	}";
  "";
  "      mpi_free_handle(*request);";
  "      *request=MPI_REQUEST_NULL;";
  "    }";
  ""; (* 50 *)
  "  return(MPI_SUCCESS);";
  "}";
  "";
  "";
  "";
  "int FC_FUNC( mpi_wait , MPI_WAIT )(int *request, int *status, int *ierror)";
  "{";
  "  *ierror=MPI_Wait( (void *)request, mpi_c_status(status) );";
  "  return MPI_SUCCESS;";
  "}"; (* 60 *)
  "";
  "";
  "";
  "int MPI_Wait(MPI_Request *request, MPI_Status *status)";
  "{";
  "  int flag;";
  "";
  "  MPI_Test(request,&flag,status);";
  "";
  "  if (!flag)"; (* 70 *)
  "    {";
  "      fprintf(stderr,""MPI_Wait: request not complete, deadlock\n"");";
  "      abort();";
  "    }";
  "";
  "  return(MPI_SUCCESS);";
  "}";
  "";
  "";
  "/*********/"; (* 80 *)
  "";
  "";
  "int FC_FUNC( mpi_waitany , MPI_WAITANY )(int *count, int *requests,";
  "                                       int *index, int *status, int *ierror)";
  "{";
  "";
  "  *ierror=MPI_Waitany(*count, (void *)requests,index,mpi_c_status(status));";
  "  return MPI_SUCCESS;";
  "}";
  ""; (* 90 *)
  "";
  "";
  "int MPI_Waitany(int count, MPI_Request *array_of_requests,";
  "                int *index, MPI_Status *status)";
  "{";
  "  int flag;";
  "";
  "  MPI_Testany(count, array_of_requests, index, &flag, status);";
  "";
  "  if (!flag)"; (* 100 *)
  "  {";
  "    /* none are completed */";
  "";
  "    fprintf(stderr,""MPI_Waitany: no requests complete, deadlock\n"");";
  "    abort();";
  "";
  "  }";
  "";
  "  return(MPI_SUCCESS);";
  "}"; (* 110 *)
  "";
  "/* MPI_Testany:  looks for any message matching an element";
  " * in request array and returns its status.";
  " * flag=0 means no match was found.";
  " */";
  "";
  "int FC_FUNC(mpi_testany, MPI_TESTANY)";
  "         (int * count, int * array_of_requests,";
  "          int * index, int * flag, int *status, int * ierr)";
  "{"; (* 120 *)
  "  *ierr = MPI_Testany(*count, array_of_requests, index,";
  "                      flag, mpi_c_status(status));";
  "  return MPI_SUCCESS;";
  "}";
  "";
  "int MPI_Testany(int count,  MPI_Request *array_of_requests,";
  "                int *index, int *flag, MPI_Status *status)";
  "{";
  "  int i;";
  ""; (* 130 *)
  "  for (i=0; i<count; i++)";
  "    {";
  "      MPI_Test(&array_of_requests[i],flag,status);";
  "";
  "      if (*flag)";
  "        return(MPI_SUCCESS);";
  "    }";
  "";
  "  /* none are completed */";
  ""; (* 140 *)
  "  *flag=0;";
  "  return(MPI_SUCCESS);";
  "}";
  "";
  "/************";
  " * testall: tests that all requests have completed,";
  " * if so return request array, otherwise set flag=0";
  " */";
  "int FC_FUNC(mpi_testall, MPI_TESTALL)";
  "         (int * count, int * array_of_requests, int *flag,"; (* 150 *)
  "          int * array_of_statuses, int * ierr)";
  "{";
  "  *ierr = MPI_Testall(*count, array_of_requests, flag,";
  "                      mpi_c_statuses(array_of_statuses));";
  "  return MPI_SUCCESS;";
  "}";
  "";
  "int MPI_Testall(int count, MPI_Request *array_of_requests,";
  "                int *flag, MPI_Status *array_of_statuses)";
  "{"; (* 160 *)
  "  int i;";
  "  int iflag;";
  "";
  "  *flag = 1;";
  "";
  "  for (i=0; i<count && flag; i++)";
  "  {";
  "      MPI_Test(&array_of_requests[i],&iflag,&array_of_statuses[i]);";
  "";
  "      if (!iflag)"; (* 170 *)
  "        *flag=0;";
  "  }";
  "";
  "  return(MPI_SUCCESS);";
  "}";
  "";
  "/*********/";
  "/* Waitall:  Does a testall, but if no request has";
  " * completed, abort with an error";
  " */"; (* 180 *)
  "";
  "int FC_FUNC( mpi_waitall , MPI_WAITALL )(int *count, int *array_of_requests,";
  "                                       int *array_of_statuses, int *ierror)";
  "{";
  "  *ierror=MPI_Waitall(*count, (void *)array_of_requests,";
  "                      mpi_c_statuses(array_of_statuses));";
  "  return MPI_SUCCESS;";
  "";
  "}";
  ""; (* 190 *)
  "";
  "";
  "int MPI_Waitall(int count, MPI_Request *array_of_requests,";
  "                MPI_Status *array_of_statuses)";
  "{";
  "  int i;";
  "  int flag;";
  "";
  "  for (i=0; i<count; i++)";
  "    {"; (* 200 *)
  "      MPI_Test(&array_of_requests[i],&flag,&array_of_statuses[i]);";
  "";
  "      if (!flag)";
  "        {";
  "          fprintf(stderr,""MPI_Waitall: request not complete, deadlock\n"");";
  "          abort();";
  "        }";
  "    }";
  "";
  "  return(MPI_SUCCESS);"; (* 210 *)
  "}";
  "";
  "/* Testsome:  tests each of an array of requests, and returns each one's";
  " * status in an array (if it is available";
  " */";
  "";
  "int FC_FUNC(mpi_testsome, MPI_TESTSOME)";
  "         (int * incount, int * array_of_requests, int * outcount,";
  "          int * array_of_indices, int * array_of_statuses, int * ierr)";
  "{"; (* 220 *)
  "  *ierr = MPI_Testsome(*incount, array_of_requests, outcount,";
  "		       array_of_indices, mpi_c_statuses(array_of_statuses));";
  "  return MPI_SUCCESS;";
  "}";
  "";
  "int MPI_Testsome(int incount, MPI_Request *array_of_requests, int *outcount,";
  "                 int *array_of_indices, MPI_Status *array_of_statuses)";
  "{";
  "  int i;";
  "  int flag;"; (* 230 *)
  "";
  "  *outcount = 0;";
  "  for (i=0; i<incount; i++)";
  "  {";
  "      flag=0;";
  "      MPI_Test(&array_of_requests[i],&flag,&array_of_statuses[i]);";
  "      ";
  "      if (flag)";
  "	  (*outcount)++;";
  "  }"; (* 240 *)
  "";
  "  return(MPI_SUCCESS);";
  "";
  "}";
  "";
  "/* Waitsome: checks for availability of at least one status from array of";
  " * requests.  If no statuses are available, abort with error";
  " */";
  "";
  "int FC_FUNC(mpi_waitsome, MPI_WAITSOME)"; (* 250 *)
  "         (int * incount, int * array_of_requests, int * outcount,";
  "          int * array_of_indices, int *array_of_statuses, int * ierr)";
  "{";
  "  *ierr = MPI_Waitsome(*incount, array_of_requests, outcount,";
  "		       array_of_indices, mpi_c_statuses(array_of_statuses));";
  "  return MPI_SUCCESS;";
  "}";
  "";
  "int MPI_Waitsome(int incount, MPI_Request *array_of_requests, int *outcount,";
  "                 int *array_of_indices, MPI_Status *array_of_statuses)"; (* 260 *)
  "{";
  "  MPI_Testsome(incount, array_of_requests, outcount,";
  "               array_of_indices, array_of_statuses);";
  "";
  "  if (!outcount)";
  "  {";
  "    fprintf(stderr,""Waitsome: No requests complete, deadlock\n"");";
  "    abort();";
  "  }";
  ""; (* 270 *)
  "  return MPI_SUCCESS;";
  "}";
  "";
  "/***********************/";
  "/* Request_free:  Frees the handle and request";
  " */";
  "";
  "int FC_FUNC(mpi_request_free, MPI_REQUEST_FREE)";
  "         (int * request, int * ierr)";
  "{"; (* 280 *)
  "  *ierr = MPI_Request_free(request);";
  "  return MPI_SUCCESS;";
  "}";
  "";
  "int MPI_Request_free(MPI_Request * req)";
  "{";
  "  mpi_free_handle(*req);";
  "  *req = MPI_REQUEST_NULL;";
  "  return (MPI_SUCCESS);";
  "}"; (* 290 *)
  "";
  "";
  "";
  "/*********/";
  "";
  "";
  "MPI_Request MPI_Request_f2c(MPI_Fint request)";
  "{";
  "  return(request);";
  "}"; (* 300 *)
  "";
  "";
  "/*********/";
  "";
  "";
  "";
  "MPI_Fint MPI_Request_c2f(MPI_Request request)";
  "{";
  "  return(request);";
  "}" (* 310 *)
].

(** send.c 1-253: the whole file. *)
Definition s_send_c : list string := [
  "#include ""mpiP.h""";
  "";
  "";
  "/*";
  " * SENDING";
  " *";
  " */";
  "";
  "";
  ""; (* 10 *)
  "static int mpi_match_recv(void *r, void *tag)";
  "{";
  "    return( ((Req *)r)->tag == MPI_ANY_TAG ||";
  "	  ((Req *)r)->tag == *((int *)tag) );";
  "}";
  "";
  "";
  "/*";
  " *";
  " */"; (* 20 *)
  "";
  "";
  "";
  "int FC_FUNC( mpi_isend , MPI_ISEND )(void *buf, int *count, int *datatype,";
  "   int *dest, int *tag, int *comm, int *req, int *ierror)";
  "{";
  "";
  "  *ierror=MPI_Isend(buf,*count,*datatype,*dest,*tag,";
  "		    *comm, (void *)req);";
  ""; (* 30 *)
  "  return MPI_SUCCESS;";
  "}";
  "";
  "";
  "";
  "int MPI_Isend(void *buf, int count, MPI_Datatype datatype,";
  "	      int dest, int tag, MPI_Comm comm, MPI_Request *request)";
  "{";
  "  pListitem match;";
  "  Comm *mycomm;"; (* 40 *)
  "  Req *rreq, *sreq;";
  "";
  "  mycomm=mpi_handle_to_ptr(comm);   /* (Comm *)comm; */";
  "";
  "#ifdef INFO";
  "  fflush(stdout);";
  "  fprintf(stderr,""MPI_Isend: Comm=%d  tag=%d  count=%d type=%d\n"",";
  "	 mycomm->num,tag,count,datatype);";
  "#endif";
  ""; (* 50 *)
  "  if (dest!=0 && dest!=MPI_PROC_NULL)";
  "    {";
  "      fprintf(stderr,""MPI_Isend: send to %d\n"",dest);";
  "      abort();";
  "    }";
  "";
  "  mpi_alloc_handle(request,(void **) &sreq);";
  "";
  "";
  "  if (dest==MPI_PROC_NULL)"; (* 60 *)
  "    {";
  "      sreq->complete=1;";
  "      return(MPI_SUCCESS);";
  "    }";
  "  if (( match=AP_list_search_func(mycomm->recvlist,mpi_match_recv,&tag)))";
  "    {";
  "      rreq=(Req *)AP_listitem_data(match);";
  "      AP_list_delete_item(mycomm->recvlist,match);";
  "";
  "      copy_data2(buf, count, datatype, rreq->buf, rreq->count, rreq->type);"; (* 70 *)
  "      rreq->complete=1;";
  "      rreq->source=0;";
  "      rreq->tag=tag;                    /* in case rreq->tag was MPI_ANY_TAG */";
  "";
  "      sreq->complete=1;";
  "";
  "#ifdef DEBUG";
  "      printf(""Completion(send) value=%d tag=%d\n"",";
  "	     *((int *)buf),rreq->tag);";
  "#endif"; (* 80 *)
  "";
  "      return(MPI_SUCCESS);";
  "    }";
  "";
  "  sreq->buf=buf;";
  "  sreq->tag=tag;";
  "  sreq->complete=0;";
  "  sreq->listitem=AP_list_append(mycomm->sendlist,sreq);";
  "";
  "#ifdef INFO"; (* 90 *)
  "  print_list(mycomm->sendlist,""sendlist for comm "",mycomm->num);";
  "#endif";
  "";
  "  return(MPI_SUCCESS);";
  "}";
  "";
  "";
  "/*********/";
  "";
  ""; (* 100 *)
  "int FC_FUNC(mpi_send, MPI_SEND) ( void *buf, int *count, int *datatype,";
  " 		                int *dest, int *tag, int *comm, int *ierror)";
  "{";
  "  *ierror=MPI_Send(buf, *count, *datatype, *dest, *tag, *comm);";
  "  return MPI_SUCCESS;";
  "}";
  "";
  "";
  "";
  "int MPI_Send(void* buf, int count, MPI_Datatype datatype,"; (* 110 *)
  "	     int dest, int tag, MPI_Comm comm)";
  "{";
  "  MPI_Request request;";
  "  MPI_Status status;";
  "";
  "#ifdef INFO";
  "  fflush(stdout);";
  "  fprintf(stderr,""MPI_Send: "");";
  "#endif";
  ""; (* 120 *)
  "  MPI_Isend(buf,count,datatype,dest,tag,comm,&request);";
  "  MPI_Wait(&request,&status);";
  "";
  "";
  "  return(MPI_SUCCESS);";
  "}";
  "";
  "";
  "";
  ""; (* 130 *)
  "/*********/";
  "";
  "";
  "int FC_FUNC(mpi_ssend, MPI_SSEND) ( void *buf, int *count, int *datatype,";
  "                                  int *dest, int *tag, int *comm, int *ierror)";
  "{";
  "  *ierror=MPI_Send(buf, *count, *datatype, *dest, *tag, *comm);";
  "  return MPI_SUCCESS;";
  "}";
  ""; (* 140 *)
  "";
  "";
  "int MPI_Ssend(void* buf, int count, MPI_Datatype datatype,";
  "              int dest, int tag, MPI_Comm comm)";
  "{";
  "  return(MPI_Send(buf,count,datatype,dest,tag,comm));";
  "}";
  "";
  "";
  ""; (* 150 *)
  "/*********/";
  "";
  "";
  "int FC_FUNC(mpi_rsend, MPI_RSEND) ( void *buf, int *count, int *datatype,";
  "                                  int *dest, int *tag, int *comm, int *ierror)";
  "{";
  "  *ierror=MPI_Send(buf, *count, *datatype, *dest, *tag, *comm);";
  "  return MPI_SUCCESS;";
  "}";
  ""; (* 160 *)
  "";
  "";
  "int MPI_Rsend(void* buf, int count, MPI_Datatype datatype,";
  "              int dest, int tag, MPI_Comm comm)";
  "{";
  "  return(MPI_Send(buf,count,datatype,dest,tag,comm));";
  "}";
  "";
  "";
  ""; (* 170 *)
  "";
  "/*********/";
  "";
  "";
  "";
  "int FC_FUNC( mpi_irsend , MPI_IRSEND )(void *buf, int *count, int *datatype,";
  "   int *dest, int *tag, int *comm, int *req, int *ierror)";
  "{";
  "";
  "  *ierror=MPI_Irsend(buf,*count,*datatype,*dest,*tag,"; (* 180 *)
  "                    *comm, (void *)req);";
  "";
  "  return MPI_SUCCESS;";
  "}";
  "";
  "";
  "";
  "int MPI_Irsend(void *buf, int count, MPI_Datatype datatype,";
  "               int dest, int tag, MPI_Comm comm, MPI_Request *request)";
  "{"; (* 190 *)
  "  Req *req;";
  "";
  "";
  "  MPI_Isend(buf,count,datatype,dest,tag,comm,request);";
  "";
  "  /* Ready mode implied a receive must already be posted,";
  "   * so the Isend should have completed already.";
  "   * Can't use MPI_Test here for the error check because";
  "   * it would clear the request prematurely.";
  "   */"; (* 200 *)
  "";
  "  req=mpi_handle_to_ptr(*request);";
  "  if ( !req->complete )";
  "    {";
  "      fprintf(stderr,""MPI_Irsend: no matching receive found\n"");";
  "      abort();";
  "    }";
  "";
  "";
  "  return(MPI_SUCCESS);"; (* 210 *)
  "}";
  "";
  "";
  "";
  "";
  "/*********/";
  "";
  "";
  "int FC_FUNC(mpi_sendrecv, MPI_SENDRECV) (";
  "     void *sendbuf, int *sendcount, int *sendtype, int *dest, int *sendtag,"; (* 220 *)
  "     void *recvbuf, int *recvcount, int *recvtype, int *source, int *recvtag,";
  "     int *comm, int *status,";
  "     int *ierror)";
  "{";
  "  *ierror=MPI_Sendrecv(sendbuf, *sendcount, *sendtype, *dest, *sendtag,";
  "                       recvbuf, *recvcount, *recvtype, *source, *recvtag,";
  "                       *comm, mpi_c_status(status));";
  "  return MPI_SUCCESS;";
  "}";
  ""; (* 230 *)
  "";
  "";
  "int MPI_Sendrecv(void* sendbuf, int sendcount, MPI_Datatype sendtype,";
  "                 int dest, int sendtag,";
  "                 void *recvbuf, int recvcount, MPI_Datatype recvtype,";
  "                 int source, int recvtag,";
  "                 MPI_Comm comm, MPI_Status *status)";
  "{";
  "  MPI_Request request;";
  ""; (* 240 *)
  "";
  "  MPI_Irecv(recvbuf, recvcount, recvtype, source, recvtag, comm, &request);";
  "";
  "  MPI_Send(sendbuf, sendcount, sendtype, dest, sendtag, comm);";
  "";
  "  MPI_Wait(&request,status);";
  "";
  "";
  "  return(MPI_SUCCESS);";
  "}"; (* 250 *)
  "";
  "";
  ""
].

(** time.c 1-35: the whole file. *)
Definition s_time_c : list string := [
  "";
  "#include <sys/time.h>";
  "#include <time.h>";
  "";
  "";
  "#include ""mpiP.h""";
  "";
  "";
  "double MPI_Wtime(void);";
  ""; (* 10 *)
  "";
  "";
  "double FC_FUNC( mpi_wtime, MPI_WTIME )(void)";
  "{";
  "  return(MPI_Wtime());";
  "}";
  "";
  "";
  "";
  "double MPI_Wtime(void)"; (* 20 *)
  "{";
  "  struct timeval tv;";
  "";
  "  if (gettimeofday(&tv,0))";
  "    {";
  "      fprintf(stderr,""MPI_Wtime: error calling gettimeofday()\n"");";
  "      abort();";
  "    }";
  "";
  ""; (* 30 *)
  "  return((double)(tv.tv_sec) + (double)(tv.tv_usec)/1e6) ;";
  "}";
  "";
  "";
  ""
].

(** type.c 1-867: the whole file. *)
Definition s_type_c : list string := [
  "/*";
  " * JCY";
  " * 07/2007";
  " * Derived Datatype functions for mpi-serial";
  " */";
  "";
  "#include ""type.h""";
  "#include ""mpiP.h""";
  "#include <stdlib.h>";
  "#include <stdio.h>"; (* 10 *)
  "#include <limits.h>";
  "";
  "#ifdef HAVE_CONFIG_H";
  "#include <config.h>";
  "#endif";
  "";
  "/*";
  " * NOTES: All MPI_ prefixed (public) functions operate";
  " * using the integer handle for a datatype.  Most of these";
  " * functions are wrapper functions for a different function,"; (* 20 *)
  " * _not_ prefixed with MPI_.  These functions translate the";
  " * handle to a pointer and call the non-MPI_ func.";
  " *";
  " * Fortran bindings use FC_FUNC, as defined in mpiP.h.";
  " */";
  "";
  "";
  "/*";
  " * Wrapper for mpi_handle_to_ptr in handles.c";
  " * specific for datatype handles, which may be"; (* 30 *)
  " * predefined negative handles";
  " */";
  "Datatype* mpi_handle_to_datatype(int handle)";
  "{";
  "  if (handle < 0)";
  "    return (Datatype*) &simpletypes[-1-handle];";
  "  else";
  "    return (Datatype*) mpi_handle_to_ptr(handle);";
  "}";
  ""; (* 40 *)
  "/*";
  " * Calculate the epsilon value of typemap";
  " * using the largest element in the typemap";
  " */";
  "";
  "int calc_padding(Datatype datatype)";
  "{";
  "  long size_max = INT_MIN;";
  "  long type_len;";
  "  int i;"; (* 50 *)
  "  //find the largest datatype size.  The epsilon padding is (probably) based on this.";
  "";
  "  for (i = 0; i < datatype->count; i++)";
  "  {";
  "    type_len = Simpletype_length(datatype->pairs[i].type);";
  "    size_max = type_len > size_max ? type_len : size_max;";
  "  }";
  "";
  "  return size_max;";
  "}"; (* 60 *)
  "";
  "/* Retrieve size of any simple type";
  " * C sizes use sizeof the literal type";
  " * they represent.  Fortran types are those";
  " * as defined in type.h";
  " */";
  "";
  "int Simpletype_length(Simpletype t)";
  "{";
  "  switch(t)"; (* 70 *)
  "  {";
  "    case SIMPLE_CHAR:";
  "      return sizeof(char); break;";
  "    case SIMPLE_SHORT:";
  "      return sizeof(short); break;";
  "    case SIMPLE_INT:";
  "      return sizeof(int); break;";
  "    case SIMPLE_LONG:";
  "      return sizeof(long); break;";
  "    case SIMPLE_UCHAR:"; (* 80 *)
  "      return sizeof(unsigned char); break;";
  "    case SIMPLE_USHORT:";
  "      return sizeof(unsigned short); break;";
  "    case SIMPLE_UINT:";
  "      return sizeof(unsigned int); break;";
  "    case SIMPLE_ULONG:";
  "      return sizeof(unsigned long); break;";
  "    case SIMPLE_FLOAT:";
  "      return sizeof(float); break;";
  "    case SIMPLE_DOUBLE:"; (* 90 *)
  "      return sizeof(double); break;";
  "    case SIMPLE_LDOUBLE:";
  "      return sizeof(long double); break;";
  "    case SIMPLE_BYTE:";
  "      return sizeof(char); break;";
  "    case SIMPLE_FINTEGER:";
  "      return FSIZE_INTEGER; break;";
  "    case SIMPLE_FREAL:";
  "      return FSIZE_REAL; break;";
  "    case SIMPLE_FDPRECISION:"; (* 100 *)
  "      return FSIZE_DPRECISION; break;";
  "    case SIMPLE_FCOMPLEX:";
  "      return FSIZE_COMPLEX; break;";
  "    case SIMPLE_FDCOMPLEX:";
  "      return FSIZE_DCOMPLEX; break;";
  "    case SIMPLE_FLOGICAL:";
  "      return FSIZE_LOGICAL; break;";
  "    case SIMPLE_FCHARACTER:";
  "      return FSIZE_CHARACTER; break;";
  "    case SIMPLE_FINTEGER1:"; (* 110 *)
  "      return 1; break;";
  "    case SIMPLE_FINTEGER2:";
  "      return 2; break;";
  "    case SIMPLE_FINTEGER4:";
  "      return 4; break;";
  "    case SIMPLE_FINTEGER8:";
  "      return 8; break;";
  "    case SIMPLE_FREAL4:";
  "      return 4; break;";
  "    case SIMPLE_FREAL8:"; (* 120 *)
  "      return 8; break;";
  "    case SIMPLE_FREAL16:";
  "      return 16; break;";
  "    case SIMPLE_FCOMPLEX8:";
  "      return 8; break;";
  "    case SIMPLE_FCOMPLEX16:";
  "      return 16; break;";
  "    case SIMPLE_FCOMPLEX32:";
  "      return 32; break;";
  "    case SIMPLE_LONGLONG:"; (* 130 *)
  "      return sizeof(long long); break;";
  "    case SIMPLE_ULONGLONG:";
  "      return sizeof(unsigned long long); break;";
  "    case SIMPLE_OFFSET:";
  "      return sizeof(MPI_Offset); break;";
  "";
  "    default:";
  "      printf(""Invalid simple type\n"");";
  "      exit(1);";
  "  }"; (* 140 *)
  "}";
  "";
  "/*";
  " * calculates the lower bound of a datatype using typemap";
  " * (This gives no regard to MPI_LB, but rather uses only displacements)";
  " */";
  "long calc_lb(Datatype type)";
  "{";
  "  int i;";
  "  int min_disp = INT_MAX;"; (* 150 *)
  "  typepair * tp;";
  "";
  "  for(i =0; i < type->count; i++)";
  "  {";
  "    tp =  type->pairs+i;";
  "    min_disp = tp->disp < min_disp";
  "                ? tp->disp";
  "                : min_disp;";
  "  }";
  "  return min_disp;"; (* 160 *)
  "}";
  "";
  "/*";
  " * Calculate upper bound using typemap";
  " * (Gives no regard to MPI_UB, just calculates";
  " * highest displacement+size of its respective data type)";
  " */";
  "long calc_ub(Datatype type)";
  "{";
  "  int i;"; (* 170 *)
  "  long max_disp = INT_MIN;";
  "  typepair * tp;";
  "";
  "  for(i = 0; i < type->count; i++)";
  "  {";
  "    tp = type->pairs+i;";
  "    max_disp = tp->disp + Simpletype_length(tp->type) > max_disp";
  "                ? tp->disp + Simpletype_length(tp->type)";
  "                : max_disp;";
  "  }"; (* 180 *)
  "";
  "  return max_disp;";
  "}";
  "";
  "";
  "/* MPI_Type_extent: return ub-lb, plus padding";
  " */";
  "int Type_extent(Datatype datatype, MPI_Aint * extent)";
  "{";
  ""; (* 190 *)
  "  if (!(datatype->o_lb || datatype->o_ub))";
  "  {";
  "    int epsilon = calc_padding(datatype);";
  "    //current epsilon value is based off of largest datatype size";
  "    int mod = (datatype->ub - datatype->lb) % epsilon;";
  "    if (mod == 0)";
  "      epsilon = 0;";
  "    else";
  "      epsilon = epsilon - mod;";
  "    *extent = (datatype->ub - datatype->lb) + epsilon;"; (* 200 *)
  "  }";
  "  else";
  "  {";
  "    *extent = datatype->ub - datatype->lb;";
  "  }";
  "";
  "  return MPI_SUCCESS;";
  "}";
  "";
  "int FC_FUNC( mpi_type_extent, MPI_TYPE_EXTENT)(int * type, MPI_Aint * extent, int * ierr)"; (* 210 *)
  "{";
  "    *ierr = MPI_Type_extent(*type, extent);";
  "    return MPI_SUCCESS;";
  "}";
  "";
  "int MPI_Type_extent(MPI_Datatype type, MPI_Aint * extent)";
  "{";
  "    Datatype type_ptr = *(Datatype*) mpi_handle_to_datatype(type);";
  "";
  "    return Type_extent(type_ptr, extent);"; (* 220 *)
  "}";
  "";
  "/* True_extent returns an extent based only on";
  " * calculated upper and lower bound, regardless of any";
  " * override using MPI_LB or MPI_UB";
  " */";
  "int Type_get_true_extent(Datatype type, MPI_Aint * extent)";
  "{";
  "  long epsilon = calc_padding(type);";
  "  long ub = calc_ub(type);"; (* 230 *)
  "  long lb = calc_lb(type);";
  "  //current epsilon value is based off of largest datatype size";
  "  long mod = (ub - lb) % epsilon;";
  "  if (mod == 0)";
  "    epsilon = 0;";
  "  else";
  "    epsilon = epsilon - mod;";
  "  *extent = (ub - lb) + epsilon;";
  "";
  "  return MPI_SUCCESS;"; (* 240 *)
  "}";
  "";
  "/* copy_type: Creates a deep copy of source typepair into dest";
  " */";
  "int Copy_type(typepair *source, typepair *dest)";
  "{";
  "    dest->type = source->type;";
  "    dest->disp = source->disp;";
  "    return MPI_SUCCESS;";
  ""; (* 250 *)
  "}";
  "";
  "/*******************************************************/";
  "/* MPI_Type_struct is the most general type constructor that";
  " * does the common work other constructors.";
  " * All other type constructors call this function.";
  " */";
  "";
  "int Type_struct(int count, int * blocklens, MPI_Aint * displacements,";
  "                Datatype *oldtypes_ptr,     Datatype *newtype)"; (* 260 *)
  "{";
  "  int i, j, k;";
  "  Datatype temp, temp2;";
  "  int newcount;";
  "  char override_lower = 0, //whether to override";
  "       override_upper = 0;";
  "  MPI_Aint  new_lb = LONG_MAX,";
  "      new_ub = LONG_MIN;";
  "  int simpletype_count = 0; //total additional blocks for malloc";
  "  MPI_Aint tmp_offset;      //for contiguous blocks of type"; (* 270 *)
  "  MPI_Aint extent;";
  "";
  "  // find the total number of elements in the typemap we need to add.";
  "  for (i = 0; i < count; i++)";
  "  {";
  "    //check for MPI_UB or MPI_LB.  These types are special";
  "    // cases and will be skipped over";
  "";
  "    temp2 = oldtypes_ptr[i];";
  "    if (temp2->pairs[0].type == SIMPLE_LOWER)"; (* 280 *)
  "    {";
  "      //found MPI_LB.  This is a candidate for the actual lb";
  "      if (new_lb > displacements[i])";
  "        new_lb = displacements[i];";
  "      override_lower = 1;";
  "    }";
  "    else if (temp2->pairs[0].type == SIMPLE_UPPER)";
  "    {";
  "      //same as above, but ub";
  "      if (new_ub < displacements[i])"; (* 290 *)
  "	new_ub = displacements[i];";
  "      override_upper = 1;";
  "    }";
  "    else";
  "    {";
  "      //this is not MPI_LB or MPI_UB";
  "      //However it may still have overriding bounds";
  "      //Test for these and add its size to the typemap.";
  "";
  "      if (temp2->o_lb)"; (* 300 *)
  "        // this type's lb has been overridden.";
  "        // ONLY an overriding lb can be the actual lb now.";
  "        override_lower = 1;";
  "      if (temp2->o_ub)";
  "        //same as above, but ub";
  "        override_upper = 1;";
  "";
  "      simpletype_count += blocklens[i] * oldtypes_ptr[i]->count;";
  "    }";
  "  }"; (* 310 *)
  "  temp = malloc(sizeof(Typestruct) +";
  "               ((simpletype_count-1) * sizeof(typepair)));";
  "";
  "  temp->count = simpletype_count;";
  "";
  "  i = 0;         //old type's index";
  "  newcount = 0;  //new type's index";
  "";
  "  while (i < count)";
  "  {"; (* 320 *)
  "    tmp_offset = 0;";
  "";
  "    temp2 = oldtypes_ptr[i];";
  "";
  "    //test for previous MPI_LB or MPI_UB in one of the comprising types.";
  "    //If found, skip over.";
  "    if (!((temp2->pairs[0].type == SIMPLE_LOWER) ||";
  "          (temp2->pairs[0].type == SIMPLE_UPPER)))";
  "    {";
  "      for (j = 0; j < blocklens[i]; j++)"; (* 330 *)
  "      {";
  "        //Copy the old type's typemap and merge into the new type";
  "        //by a ""flattening"" process";
  "        Type_extent((Datatype) oldtypes_ptr[i], &extent);";
  "";
  "        tmp_offset = j * extent;";
  "";
  "        if (temp2->o_lb && temp2->lb+displacements[i]+tmp_offset < new_lb)";
  "          new_lb = temp2->lb+displacements[i]+tmp_offset;";
  "        if (temp2->o_ub && temp2->ub+displacements[i]+tmp_offset > new_ub)"; (* 340 *)
  "        {";
  "          new_ub = temp2->ub+displacements[i]+tmp_offset;";
  "        }";
  "";
  "        for (k = 0;  k < oldtypes_ptr[i]->count; k++)";
  "        {";
  "          Copy_type( (typepair*) oldtypes_ptr[i]->pairs+k,";
  "                     (typepair*) (temp->pairs+newcount));";
  "";
  ""; (* 350 *)
  "          ((typepair*) temp->pairs+(newcount))->disp +=";
  "                       displacements[i] + tmp_offset;";
  "          newcount++;";
  "        }";
  "      }";
  "    }";
  "    i++;";
  "  }";
  "  //type is NOT committed";
  "  temp->committed = 0;"; (* 360 *)
  "";
  "  //assign upper and lower bounds here";
  "  if (override_lower)";
  "  {";
  "    //use lowest previous overridden lower bound";
  "    temp->o_lb = 1;";
  "    temp->lb = new_lb;";
  "  }";
  "  else";
  "  {"; (* 370 *)
  "    //use calculation";
  "    temp->lb = calc_lb(temp);";
  "  }";
  "";
  "  if (override_upper)";
  "  {";
  "    temp->o_ub = 1;";
  "    temp->ub = new_ub;";
  "  }";
  "  else"; (* 380 *)
  "  {";
  "    temp->ub = calc_ub(temp);";
  "  }";
  "";
  "  *newtype = temp;";
  "  temp = MPI_DATATYPE_NULL;";
  "";
  "  return MPI_SUCCESS;";
  "}";
  ""; (* 390 *)
  "int FC_FUNC( mpi_type_struct, MPI_TYPE_STRUCT )";
  "         (int * count,       int * blocklens, MPI_Aint * displacements,";
  "          int *oldtypes_ptr, int *newtype,    int *ierror)";
  "{";
  "  *ierror=MPI_Type_struct(*count, blocklens, displacements,";
  "                                    oldtypes_ptr, newtype);";
  "  return MPI_SUCCESS;";
  "}";
  "";
  "/* Public function, wrapper for Type_struct that translates handle to"; (* 400 *)
  " * pointer (see NOTES at top of file)";
  " */";
  "int MPI_Type_struct(int count, int * blocklens, MPI_Aint * displacements,";
  "                    MPI_Datatype *oldtypes,     MPI_Datatype *newtype)";
  "{";
  "    int i;";
  "    Datatype oldtypes_ptr[count];";
  "    Datatype * newtype_ptr;";
  "";
  "    for (i = 0; i < count; i++)"; (* 410 *)
  "    {";
  "        oldtypes_ptr[i] = *(Datatype*) mpi_handle_to_datatype(oldtypes[i]);";
  "    }";
  "";
  "    mpi_alloc_handle(newtype, (void**) &newtype_ptr);";
  "";
  "    return Type_struct(count, blocklens, displacements,";
  "                       oldtypes_ptr, newtype_ptr);";
  "}";
  ""; (* 420 *)
  "/*******************************************************/";
  "/*  MPI_Type_contiguous.  Create count copies of a type.";
  " *  this creates arrays of the singleton arguments and use them to call";
  " *  MPI_Type_struct()";
  " */";
  "";
  "int Type_contiguous(int count, Datatype oldtype, Datatype *newtype)";
  "{";
  "    int i;";
  "    int blocklengths[count];"; (* 430 *)
  "    Datatype oldtypes[count];";
  "    MPI_Aint offsets[count];";
  "    MPI_Aint extent;";
  "";
  "    //each copy is strided by the extent of the datatype.";
  "    // Calculate that here.";
  "    Type_extent(oldtype, &extent);";
  "    for (i = 0; i < count; i++)";
  "    {";
  "        blocklengths[i] = 1;"; (* 440 *)
  "        offsets[i] = extent * i;";
  "        oldtypes[i] = oldtype;";
  "    }";
  "    return Type_struct(count, blocklengths, offsets, oldtypes, newtype);";
  "}";
  "";
  "int FC_FUNC( mpi_type_contiguous, MPI_TYPE_CONTIGUOUS )";
  "(int *count, int *oldtype, int * newtype, int * ierr)";
  "{";
  "    *ierr = MPI_Type_contiguous(*count, *oldtype, newtype);"; (* 450 *)
  "    return MPI_SUCCESS;";
  "}";
  "";
  "int MPI_Type_contiguous(int count, MPI_Datatype old, MPI_Datatype * new)";
  "{";
  "  Datatype old_ptr = *(Datatype*) mpi_handle_to_datatype(old);";
  "  Datatype * new_ptr;";
  "";
  "  mpi_alloc_handle(new, (void**) &new_ptr);";
  ""; (* 460 *)
  "  return Type_contiguous(count, old_ptr, new_ptr);";
  "}";
  "";
  "/*******************************************************/";
  "";
  "int Type_hvector(int count, int blocklen, MPI_Aint stride,";
  "                 Datatype oldtype, Datatype *newtype)";
  "{";
  "    int i;";
  "    int blocklengths[count];"; (* 470 *)
  "    Datatype oldtypes[count];";
  "    MPI_Aint offsets[count];";
  "    MPI_Aint extent;";
  "";
  "    Type_extent(oldtype, &extent);";
  "    for (i = 0; i < count; i++)";
  "    {";
  "        blocklengths[i] = blocklen;";
  "        offsets[i] = stride * i;";
  "        oldtypes[i] = oldtype;"; (* 480 *)
  "    }";
  "";
  "    return Type_struct(count, blocklengths, offsets, oldtypes, newtype);";
  "}";
  "";
  "int FC_FUNC( mpi_type_hvector, MPI_TYPE_HVECTOR )";
  "         (int * count,   long * blocklen, long * stride,";
  "          int * oldtype, int * newtype,   int * ierr)";
  "{";
  "  *ierr = MPI_Type_hvector(*count, *blocklen, *stride, *oldtype, newtype);"; (* 490 *)
  "  return MPI_SUCCESS;";
  "}";
  "";
  "int MPI_Type_hvector(int count, int blocklen, MPI_Aint stride,";
  "                     MPI_Datatype oldtype, MPI_Datatype * newtype)";
  "{";
  "  Datatype old_ptr = *(Datatype*) mpi_handle_to_datatype(oldtype);";
  "  Datatype * new_ptr;";
  "";
  "  mpi_alloc_handle(newtype, (void**) &new_ptr);"; (* 500 *)
  "  return Type_hvector(count, blocklen, stride, old_ptr, new_ptr);";
  "}";
  "";
  "int FC_FUNC( mpi_type_create_hvector, MPI_TYPE_CREATE_HVECTOR )";
  "         (int * count,   long * blocklen, long * stride,";
  "          int * oldtype, int * newtype,   int * ierr)";
  "{";
  "  *ierr = MPI_Type_create_hvector(*count, *blocklen, *stride, *oldtype, newtype);";
  "  return MPI_SUCCESS;";
  "}"; (* 510 *)
  "";
  "int MPI_Type_create_hvector(int count, int blocklen, MPI_Aint stride,";
  "                     MPI_Datatype oldtype, MPI_Datatype * newtype)";
  "{";
  "  Datatype old_ptr = *(Datatype*) mpi_handle_to_datatype(oldtype);";
  "  Datatype * new_ptr;";
  "";
  "  mpi_alloc_handle(newtype, (void**) &new_ptr);";
  "  return Type_hvector(count, blocklen, stride, old_ptr, new_ptr);";
  "}"; (* 520 *)
  "";
  "";
  "/*************************/";
  "/* Type_vector";
  " */";
  "";
  "int Type_vector(int count, int blocklen, int stride,";
  "                Datatype oldtype, Datatype *newtype)";
  "{";
  "    MPI_Aint extent;"; (* 530 *)
  "    MPI_Aint bstride;";
  "";
  "    Type_extent(oldtype, &extent);";
  "    bstride = stride * extent;";
  "";
  "    return Type_hvector(count, blocklen, bstride, oldtype, newtype);";
  "}";
  "";
  "int FC_FUNC( mpi_type_vector, MPI_TYPE_VECTOR )";
  "         (int * count, int * blocklen, int * stride,"; (* 540 *)
  "          int * oldtype, int * newtype, int * ierr)";
  "{";
  "  *ierr = MPI_Type_vector(*count, *blocklen, *stride, *oldtype, newtype);";
  "  return MPI_SUCCESS;";
  "";
  "}";
  "";
  "int MPI_Type_vector(int count, int blocklen, int stride,";
  "                    MPI_Datatype oldtype, MPI_Datatype * newtype)";
  "{"; (* 550 *)
  "  Datatype old_ptr = *(Datatype*) mpi_handle_to_datatype(oldtype);";
  "  Datatype * new_ptr;";
  "";
  "  mpi_alloc_handle(newtype, (void**) &new_ptr);";
  "";
  "  return Type_vector(count, blocklen, stride, old_ptr, new_ptr);";
  "}";
  "";
  "";
  "/*******************************************************/"; (* 560 *)
  "";
  "int Type_hindexed(int count, int *blocklens, MPI_Aint *displacements,";
  "                  Datatype oldtype, Datatype *newtype)";
  "{";
  "    int i;";
  "    Datatype oldtypes[count];";
  "";
  "    for (i = 0; i < count; i++)";
  "    {";
  "        oldtypes[i] = oldtype;"; (* 570 *)
  "    }";
  "";
  "    return Type_struct(count, blocklens, displacements, oldtypes, newtype);";
  "}";
  "";
  "int FC_FUNC( mpi_type_hindexed, MPI_TYPE_HINDEXED )";
  "         (int * count,   int * blocklens, MPI_Aint * displacements,";
  "          int * oldtype, int * newtype,   int * ierr)";
  "{";
  "  *ierr = MPI_Type_hindexed(*count, blocklens, displacements,"; (* 580 *)
  "                            *oldtype, newtype);";
  "  return MPI_SUCCESS;";
  "}";
  "";
  "int MPI_Type_hindexed(int count, int *blocklens, MPI_Aint * disps,";
  "                      MPI_Datatype oldtype, MPI_Datatype * newtype)";
  "{";
  "  Datatype old_ptr = *(Datatype*) mpi_handle_to_datatype(oldtype);";
  "  Datatype * new_ptr;";
  ""; (* 590 *)
  "  mpi_alloc_handle(newtype, (void**) &new_ptr);";
  "  return Type_hindexed(count, blocklens, disps, old_ptr, new_ptr);";
  "}";
  "";
  "";
  "/*******************************************************/";
  "";
  "int Type_indexed(int count, int *blocklens, int *displacements,";
  "                 Datatype oldtype, Datatype *newtype)";
  "{"; (* 600 *)
  "    int i;";
  "    MPI_Aint extent;";
  "    MPI_Aint bdisps[count];";
  "";
  "    for (i = 0; i < count; i++)";
  "    {";
  "        Type_extent(oldtype, &extent);";
  "        bdisps[i] = displacements[i] * extent;";
  "    }";
  ""; (* 610 *)
  "    return Type_hindexed(count, blocklens, bdisps, oldtype, newtype);";
  "}";
  "";
  "int FC_FUNC( mpi_type_indexed, MPI_TYPE_INDEXED )";
  "         (int * count,   int * blocklens, int * displacements,";
  "          int * oldtype, int * newtype,   int * ierr)";
  "{";
  "  *ierr = MPI_Type_indexed(*count, blocklens, displacements, *oldtype, newtype);";
  "  return MPI_SUCCESS;";
  "}"; (* 620 *)
  "";
  "";
  "int MPI_Type_indexed(int count, int *blocklens, int *displacements,";
  "                     MPI_Datatype oldtype, MPI_Datatype * newtype)";
  "{";
  "  Datatype old_ptr = *(Datatype*) mpi_handle_to_datatype(oldtype);";
  "  Datatype * new_ptr;";
  "";
  "  mpi_alloc_handle(newtype, (void**) &new_ptr);";
  "  return Type_indexed(count, blocklens, displacements, old_ptr, new_ptr);"; (* 630 *)
  "}";
  "";
  "/*******************************************************/";
  "";
  "int Type_create_indexed_block(int count, int blocklen, int *displacements,";
  "			      Datatype oldtype, Datatype *newtype)";
  "{";
  "    int i;";
  "    int blocklens[count];";
  ""; (* 640 *)
  "    for (i = 0; i < count; i++)";
  "        blocklens[i] = blocklen;";
  "";
  "    return Type_indexed(count, blocklens, displacements, oldtype, newtype);";
  "}";
  "";
  "int FC_FUNC( mpi_type_create_indexed_block, MPI_TYPE_CREATE_INDEXED_BLOCK )";
  "         (int * count,   int * blocklen, int * displacements,";
  "          int * oldtype, int * newtype,  int * ierr)";
  "{"; (* 650 *)
  "  *ierr = MPI_Type_create_indexed_block(*count, *blocklen, displacements,";
  "					*oldtype, newtype);";
  "  return MPI_SUCCESS;";
  "}";
  "";
  "int MPI_Type_create_indexed_block(int count, int blocklen, int *displacements,";
  "				  MPI_Datatype oldtype, MPI_Datatype * newtype)";
  "{";
  "  Datatype old_ptr = *(Datatype*) mpi_handle_to_datatype(oldtype);";
  "  Datatype * new_ptr;"; (* 660 *)
  "";
  "  mpi_alloc_handle(newtype, (void**) &new_ptr);";
  "  return Type_create_indexed_block(count, blocklen, displacements, old_ptr, new_ptr);";
  "}";
  "";
  "/*******************************************************/";
  "";
  "int Type_dup(Datatype oldtype, Datatype *newtype)";
  "{";
  "  int i;"; (* 670 *)
  "  //create a deep copy of given Datatype";
  "  *newtype = malloc(sizeof(oldtype));";
  "  (*newtype)->committed = oldtype->committed;";
  "  (*newtype)->lb = oldtype->lb;";
  "  (*newtype)->ub = oldtype->ub;";
  "  (*newtype)->o_lb = oldtype->o_lb;";
  "  (*newtype)->o_ub = oldtype->o_ub;";
  "";
  "  for (i = 0; i < oldtype->count; i++)";
  "  {"; (* 680 *)
  "    Copy_type((typepair*) oldtype->pairs + i,";
  "              (typepair*) (*newtype)->pairs + i );";
  "  }";
  "  return MPI_SUCCESS;";
  "}";
  "";
  "/* MPI_Type_size:  Returns the sum of the lengths of each simple";
  " * type that makes up the data type argument";
  " */";
  "int Type_size(Datatype type, int * size)"; (* 690 *)
  "{";
  "    int i;";
  "    *size = 0;";
  "    for (i=0; i < type->count; i++)";
  "        *size += Simpletype_length(type->pairs[i].type);";
  "";
  "";
  "    return MPI_SUCCESS;";
  "}";
  ""; (* 700 *)
  "int FC_FUNC( mpi_type_size, MPI_TYPE_SIZE )(int * type, int * size, int * ierr)";
  "{";
  "  *ierr=MPI_Type_size(*type, size);";
  "  return MPI_SUCCESS;";
  "}";
  "";
  "int MPI_Type_size(MPI_Datatype type, int * size)";
  "{";
  "  Datatype type_ptr = *(Datatype*) mpi_handle_to_datatype(type);";
  "  return Type_size(type_ptr, size);"; (* 710 *)
  "}";
  "";
  "/* MPI_Type_lb: Returns the lower bound (which may be overridden";
  " * or calculated)";
  " */";
  "int Type_lb(Datatype type, MPI_Aint * lb)";
  "{";
  "    *lb = type->lb;";
  "  return MPI_SUCCESS;";
  "}"; (* 720 *)
  "";
  "int FC_FUNC( mpi_type_lb, MPI_TYPE_LB )(int * type, MPI_Aint * lb, int * ierr)";
  "{";
  "  *ierr = MPI_Type_lb(*type, lb);";
  "  return MPI_SUCCESS;";
  "}";
  "";
  "int MPI_Type_lb(MPI_Datatype type, MPI_Aint * lb)";
  "{";
  "  Datatype type_ptr = *(Datatype*) mpi_handle_to_datatype(type);"; (* 730 *)
  "";
  "  return Type_lb(type_ptr, lb);";
  "}";
  "";
  "/* MPI_Type_ub: Return upper bound (which may be overridden";
  " * or calculated";
  " */";
  "int Type_ub(Datatype type, MPI_Aint * ub)";
  "{";
  "    *ub = type->ub;"; (* 740 *)
  "  return MPI_SUCCESS;";
  "}";
  "";
  "int FC_FUNC( mpi_type_ub, MPI_TYPE_UB )(int * type, MPI_Aint * ub, int * ierr)";
  "{";
  "  *ierr = MPI_Type_ub(*type, ub);";
  "  return MPI_SUCCESS;";
  "}";
  "";
  "int MPI_Type_ub(MPI_Datatype type, MPI_Aint * ub)"; (* 750 *)
  "{";
  "  Datatype type_ptr = *(Datatype*) mpi_handle_to_datatype(type);";
  "";
  "  return Type_ub(type_ptr, ub);";
  "}";
  "";
  "/* MPI_Get_address";
  " * MPI_Address";
  " * Return address of an object";
  " */"; (* 760 *)
  "int FGet_address(void * loc, long * address)";
  "{";
  "    *address = (long) loc;";
  "    return MPI_SUCCESS;";
  "}";
  "";
  "int FC_FUNC( mpi_get_address, MPI_ADDRESS )(void * loc, long * address, int * ierr)";
  "{";
  "  *ierr = FGet_address(loc, address);";
  "  return MPI_SUCCESS;"; (* 770 *)
  "}";
  "";
  "int MPI_Get_address(void * loc, MPI_Aint * address)";
  "{";
  "    *address = (MPI_Aint) loc;";
  "    return MPI_SUCCESS;";
  "}";
  "";
  "int FC_FUNC( mpi_address, MPI_ADDRESS )(void * loc, long * address, int * ierr)";
  "{"; (* 780 *)
  "  *address = (long) loc;";
  "  *ierr = FGet_address(loc, address);";
  "  return MPI_SUCCESS;";
  "}";
  "";
  "int MPI_Address(void * loc, MPI_Aint * address)";
  "{";
  "  return MPI_Get_address(loc, address);";
  "}";
  ""; (* 790 *)
  "/***********************/";
  "";
  "int FC_FUNC( mpi_type_commit, MPI_TYPE_COMMIT )(int * datatype, int * ierr)";
  "{";
  "  *ierr = MPI_Type_commit(datatype);";
  "  return MPI_SUCCESS;";
  "}";
  "";
  "int MPI_Type_commit(MPI_Datatype * datatype)";
  "{"; (* 800 *)
  "  Datatype type_ptr = *(Datatype*) mpi_handle_to_datatype(*datatype);";
  "  (type_ptr)->committed = 1;";
  "";
  "  return MPI_SUCCESS;";
  "}";
  "";
  "/**********************/";
  "int FC_FUNC( mpi_type_free, MPI_TYPE_FREE )(int * datatype, int * ierr)";
  "{";
  "  *ierr = MPI_Type_free(datatype);"; (* 810 *)
  "  return MPI_SUCCESS;";
  "}";
  "";
  "int MPI_Type_free(MPI_Datatype * datatype)";
  "{";
  "  Datatype type_ptr = *(Datatype*) mpi_handle_to_datatype(*datatype);";
  "  free(type_ptr);";
  "  type_ptr = MPI_DATATYPE_NULL;";
  "";
  "  mpi_free_handle(*datatype);"; (* 820 *)
  "";
  "  return MPI_SUCCESS;";
  "}";
  "";
  "/* Print_typemap is used in test programs only when";
  " * --enable-test-internal is enabled in configure.";
  " */";
  "";
  "#ifdef TEST_INTERNAL";
  "int FC_FUNC( print_typemap, PRINT_TYPEMAP )(int * type, int * ierr)"; (* 830 *)
  "{";
  "  *ierr = print_typemap(*type);";
  "  return MPI_SUCCESS;";
  "}";
  "";
  "int print_typemap(MPI_Datatype type)";
  "{";
  "  Datatype type_ptr = *(Datatype*) mpi_handle_to_datatype(type);";
  "";
  "  return Pprint_typemap(type_ptr);"; (* 840 *)
  "}";
  "";
  "int Pprint_typemap(Datatype type)";
  "{";
  "  int i;";
  "  MPI_Aint extent;";
  "  Type_extent(type, &extent);";
  "";
  "  printf(""Type with %d type pairs.\n>> lb is %d\n>> ub is %d\n>>""";
  "          ""Extent is %d\n>>Epsilon based on %d\nTypemap: \n{"","; (* 850 *)
  "          type->count, type->lb, type->ub, extent, calc_padding(type));";
  "";
  "  for (i = 0; i < type->count; i++)";
  "  {";
  "    printf(""(t%d:%d, o%d)"", type->pairs[i].type,";
  "           Simpletype_length(type->pairs[i].type),";
  "           type->pairs[i].disp);";
  "";
  "    if (i != type->count-1)";
  "      printf("", "");"; (* 860 *)
  "  }";
  "  printf(""}\n"");";
  "";
  "  return MPI_SUCCESS;";
  "}";
  "#endif //TEST_INTERNAL";
  ""
].

(** type_const.c 1-189: the whole file. *)
Definition s_type_const_c : list string := [
  "#include ""type.h""";
  "";
  "  /* Here are the statically initialized structs for the predefined datatypes.";
  "   */";
  "";
  "  //C type structs";
  "  Typestruct TSchar   = {.count=1,     .lb=0,   .ub=sizeof(char),";
  "                         .committed=1, .o_lb=0, .o_ub=0, .pairs[0] =";
  "			 {.disp = 0,   .type = (Simpletype) SIMPLE_CHAR }};";
  "  Typestruct TSshort  = {.count=1,     .lb=0,   .ub=sizeof(short),"; (* 10 *)
  "                         .committed=1, .o_lb=0, .o_ub=0, .pairs[0] =";
  "			 {.disp = 0,   .type = (Simpletype) SIMPLE_SHORT }};";
  "  Typestruct TSint    = {.count = 1,   .lb = 0,   .ub=sizeof(int),";
  "                         .committed=1, .o_lb = 0, .o_ub = 0, .pairs[0]=";
  "			 {.disp = 0,   .type = (Simpletype) SIMPLE_INT }};";
  "  Typestruct TSlong   = {.count = 1,   .lb = 0,   .ub = sizeof(long),";
  "                         .committed=1, .o_lb = 0, .o_ub = 0, .pairs[0] =";
  "			 {.disp = 0,   .type = (Simpletype) SIMPLE_LONG }};";
  "  Typestruct TSuchar  = {.count = 1,   .lb = 0, .ub=sizeof(unsigned char),";
  "                         .committed=1, .o_lb = 0, .o_ub = 0, .pairs[0] ="; (* 20 *)
  "			 {.disp = 0,   .type = (Simpletype) SIMPLE_UCHAR }};";
  "  Typestruct TSushort = {.count = 1,   .lb = 0, .ub=sizeof(unsigned short),";
  "                         .committed=1, .o_lb = 0, .o_ub = 0, .pairs[0] =";
  "			 {.disp = 0,   .type = (Simpletype) SIMPLE_USHORT }};";
  "  Typestruct TSuint   = {.count = 1,   .lb = 0,   .ub = sizeof(unsigned int),";
  "                         .committed=1, .o_lb = 0, .o_ub = 0, .pairs[0] =";
  "			 {.disp = 0,   .type = (Simpletype) SIMPLE_UINT }};";
  "  Typestruct TSulong  = {.count = 1,   .lb = 0, .ub = sizeof(unsigned long),";
  "                         .committed=1, .o_lb = 0, .o_ub = 0, .pairs[0] =";
  "			 {.disp = 0,   .type = (Simpletype) SIMPLE_ULONG }};"; (* 30 *)
  "  Typestruct TSfloat  = {.count = 1,   .lb = 0, .ub = sizeof(float),";
  "                         .committed=1, .o_lb = 0, .o_ub = 0, .pairs[0] =";
  "			 {.disp = 0,   .type = (Simpletype) SIMPLE_FLOAT }};";
  "  Typestruct TSdouble = {.count = 1,   .lb = 0, .ub = sizeof(double),";
  "                         .committed=1, .o_lb = 0, .o_ub = 0, .pairs[0] =";
  "			 {.disp = 0,   .type = (Simpletype) SIMPLE_DOUBLE }};";
  "  Typestruct TSldouble = {.count = 1,  .lb = 0, .ub = sizeof(long double),";
  "                         .committed=1,.o_lb = 0, .o_ub = 0, .pairs[0] =";
  "			  {.disp = 0, .type = (Simpletype) SIMPLE_LDOUBLE }};";
  ""; (* 40 *)
  "  //Cross-language types";
  "  Typestruct TSbyte = { .count = 1, .lb = 0, .ub = sizeof(char), .committed = 1,";
  "   .o_lb = 0, .o_ub = 0, .pairs[0] = { .disp = 0, .type = (Simpletype) SIMPLE_BYTE } };";
  "  Typestruct TSpacked = { .count = 1, .lb = 0, .ub = sizeof(char), .committed = 1,";
  "   .o_lb = 0, .o_ub = 0, .pairs[0] = { .disp = 0, .type = (Simpletype) SIMPLE_BYTE } };";
  "  Typestruct TSlower = { .count = 1, .lb = 0, .ub = 0, .committed = 1,";
  "   .o_lb = 0, .o_ub = 0, .pairs[0] = { .disp = 0, .type = (Simpletype) SIMPLE_LOWER } };";
  "  Typestruct TSupper = { .count = 1, .lb = 0, .ub = 0, .committed = 1,";
  "   .o_lb = 0, .o_ub = 0, .pairs[0] = { .disp = 0, .type = (Simpletype) SIMPLE_UPPER } };";
  ""; (* 50 *)
  "  //Fortran type structs";
  "  Typestruct TSinteger = { .count = 1, .lb = 0, .ub = FSIZE_INTEGER, .committed = 1,";
  "   .o_lb = 0, .o_ub = 0, .pairs[0] = { .disp = 0, .type = (Simpletype) SIMPLE_FINTEGER } };";
  "  Typestruct TSreal = { .count = 1, .lb = 0, .ub = FSIZE_REAL, .committed = 1,";
  "   .o_lb = 0, .o_ub = 0, .pairs[0] = { .disp = 0, .type = (Simpletype) SIMPLE_FREAL } };";
  "  Typestruct TSdprecision = { .count = 1, .lb = 0, .ub = FSIZE_DPRECISION, .committed = 1,";
  "   .o_lb = 0, .o_ub = 0, .pairs[0] = { .disp = 0, .type = (Simpletype) SIMPLE_FDPRECISION } };";
  "  Typestruct TScomplex = { .count = 1, .lb = 0, .ub = FSIZE_COMPLEX, .committed = 1,";
  "   .o_lb = 0, .o_ub = 0, .pairs[0] = { .disp = 0, .type = (Simpletype) SIMPLE_FCOMPLEX } };";
  "  Typestruct TSdcomplex = { .count = 1, .lb = 0, .ub = FSIZE_DCOMPLEX, .committed = 1,"; (* 60 *)
  "   .o_lb = 0, .o_ub = 0, .pairs[0] = { .disp = 0, .type = (Simpletype) SIMPLE_FDCOMPLEX } };";
  "  Typestruct TSlogical = { .count = 1, .lb = 0, .ub = FSIZE_LOGICAL, .committed = 1,";
  "   .o_lb = 0, .o_ub = 0, .pairs[0] = { .disp = 0, .type = (Simpletype) SIMPLE_FLOGICAL } };";
  "  Typestruct TScharacter = { .count = 1, .lb = 0, .ub = FSIZE_CHARACTER, .committed = 1,";
  "   .o_lb = 0, .o_ub = 0, .pairs[0] = { .disp = 0, .type = (Simpletype) SIMPLE_FCHARACTER } };";
  "";
  "  /*Reduction function types (C)";
  "   */";
  "  Typestruct TSfloat_int   = { .count = 2, .lb = 0, .ub = sizeof(struct {float a; int b;}), .committed = 1,";
  "   .o_lb = 0, .o_ub = 0, .pairs[0] = { .disp = 0, .type = (Simpletype) SIMPLE_FLOAT },"; (* 70 *)
  "                         .pairs[1] = { .disp=sizeof(float), .type = (Simpletype) SIMPLE_INT}};";
  "  Typestruct TSdouble_int  = { .count = 2, .lb = 0, .ub =  sizeof(struct {double a; int b;}), .committed = 1,";
  "   .o_lb = 0, .o_ub = 0, .pairs[0] = { .disp = 0, .type = (Simpletype) SIMPLE_DOUBLE },";
  "                         .pairs[1] = { .disp=sizeof(double), .type = (Simpletype) SIMPLE_INT}};";
  "  Typestruct TSlong_int    = { .count = 2, .lb = 0, .ub = sizeof(struct {long a; int b;}), .committed = 1,";
  "   .o_lb = 0, .o_ub = 0, .pairs[0] = { .disp = 0, .type = (Simpletype) SIMPLE_LONG },";
  "                         .pairs[1] = { .disp=sizeof(long), .type = (Simpletype) SIMPLE_INT}};";
  "  Typestruct TS2int       = { .count = 2, .lb = 0, .ub = 2*sizeof(int), .committed = 1,";
  "   .o_lb = 0, .o_ub = 0, .pairs[0] = { .disp = 0, .type = (Simpletype) SIMPLE_INT },";
  "                         .pairs[1] = { .disp=sizeof(int), .type = (Simpletype) SIMPLE_INT}};"; (* 80 *)
  "  Typestruct TSshort_int   = { .count = 2, .lb = 0, .ub = sizeof(struct {short a; int b;}), .committed = 1,";
  "   .o_lb = 0, .o_ub = 0, .pairs[0] = { .disp = 0, .type = (Simpletype) SIMPLE_SHORT },";
  "                         .pairs[1] = { .disp=sizeof(int), .type = (Simpletype) SIMPLE_INT}};";
  "  Typestruct TSldouble_int = { .count = 2, .lb = 0, .ub = sizeof(struct {long double a; int b;}), .committed = 1,";
  "   .o_lb = 0, .o_ub = 0, .pairs[0] = { .disp = 0, .type = (Simpletype) SIMPLE_LDOUBLE },";
  "                         .pairs[1] = { .disp=sizeof(long double), .type = (Simpletype) SIMPLE_INT}};";
  "";
  "  /* Reduction function types (Fortran)";
  "   */";
  "  Typestruct TS2real       = { .count = 2, .lb = 0, .ub = 2*FSIZE_REAL, .committed = 1,"; (* 90 *)
  "   .o_lb = 0, .o_ub = 0, .pairs[0] = { .disp = 0, .type = (Simpletype) SIMPLE_FREAL },";
  "                         .pairs[1] = { .disp=FSIZE_REAL, .type = (Simpletype) SIMPLE_FREAL}};";
  "  Typestruct TS2dprecision = { .count = 2, .lb = 0, .ub = 2*FSIZE_DPRECISION, .committed = 1,";
  "   .o_lb = 0, .o_ub = 0, .pairs[0] = { .disp = 0, .type = (Simpletype) SIMPLE_FDPRECISION },";
  "                         .pairs[1] = { .disp=FSIZE_DPRECISION, .type = (Simpletype) SIMPLE_FDPRECISION}};";
  "  Typestruct TS2integer    = { .count = 2, .lb = 0, .ub = 2*FSIZE_INTEGER, .committed = 1,";
  "   .o_lb = 0, .o_ub = 0, .pairs[0] = { .disp = 0, .type = (Simpletype) SIMPLE_FINTEGER },";
  "                         .pairs[1] = { .disp=FSIZE_INTEGER, .type = (Simpletype) SIMPLE_FINTEGER}};";
  "";
  ""; (* 100 *)
  "  /* Fortran sized types";
  "   */";
  "";
  "  Typestruct TSinteger1  = {.count = 1,   .lb = 0,   .ub=1,";
  "                            .committed=1, .o_lb = 0, .o_ub = 0, .pairs[0]=";
  "			    {.disp = 0,   .type = (Simpletype) SIMPLE_FINTEGER1 }};";
  "";
  "  Typestruct TSinteger2  = {.count = 1,   .lb = 0,   .ub=2,";
  "                            .committed=1, .o_lb = 0, .o_ub = 0, .pairs[0]=";
  "			    {.disp = 0,   .type = (Simpletype) SIMPLE_FINTEGER2 }};"; (* 110 *)
  "";
  "  Typestruct TSinteger4  = {.count = 1,   .lb = 0,   .ub=4,";
  "                            .committed=1, .o_lb = 0, .o_ub = 0, .pairs[0]=";
  "			    {.disp = 0,   .type = (Simpletype) SIMPLE_FINTEGER4 }};";
  "";
  "  Typestruct TSinteger8  = {.count = 1,   .lb = 0,   .ub=8,";
  "                            .committed=1, .o_lb = 0, .o_ub = 0, .pairs[0]=";
  "			    {.disp = 0,   .type = (Simpletype) SIMPLE_FINTEGER8 }};";
  "";
  "  Typestruct TSinteger16 = {.count = 1,   .lb = 0,   .ub=16,"; (* 120 *)
  "                            .committed=1, .o_lb = 0, .o_ub = 0, .pairs[0]=";
  "			    {.disp = 0,   .type = (Simpletype) SIMPLE_FINTEGER16 }};";
  "";
  "";
  "  Typestruct TSreal4     = {.count = 1,   .lb = 0,   .ub=4,";
  "                            .committed=1, .o_lb = 0, .o_ub = 0, .pairs[0]=";
  "			    {.disp = 0,   .type = (Simpletype) SIMPLE_FREAL4 }};";
  "";
  "  Typestruct TSreal8     = {.count = 1,   .lb = 0,   .ub=8,";
  "                            .committed=1, .o_lb = 0, .o_ub = 0, .pairs[0]="; (* 130 *)
  "			    {.disp = 0,   .type = (Simpletype) SIMPLE_FREAL8 }};";
  "";
  "  Typestruct TSreal16    = {.count = 1,   .lb = 0,   .ub=16,";
  "                            .committed=1, .o_lb = 0, .o_ub = 0, .pairs[0]=";
  "			    {.disp = 0,   .type = (Simpletype) SIMPLE_FREAL16 }};";
  "";
  "  Typestruct TScomplex8  = {.count = 1,   .lb = 0,   .ub=8,";
  "                            .committed=1, .o_lb = 0, .o_ub = 0, .pairs[0]=";
  "			    {.disp = 0,   .type = (Simpletype) SIMPLE_FCOMPLEX8 }};";
  ""; (* 140 *)
  "  Typestruct TScomplex16 = {.count = 1,   .lb = 0,   .ub=16,";
  "                            .committed=1, .o_lb = 0, .o_ub = 0, .pairs[0]=";
  "			    {.disp = 0,   .type = (Simpletype) SIMPLE_FCOMPLEX16 }};";
  "";
  "  Typestruct TScomplex32 = {.count = 1,   .lb = 0,   .ub=32,";
  "                            .committed=1, .o_lb = 0, .o_ub = 0, .pairs[0]=";
  "			    {.disp = 0,   .type = (Simpletype) SIMPLE_FCOMPLEX32 }};";
  "";
  "  /* Additions";
  "   */"; (* 150 *)
  "";
  "Typestruct TSlonglong  = {.count = 1,   .lb = 0,   .ub=sizeof(long long),";
  "                            .committed=1, .o_lb = 0, .o_ub = 0, .pairs[0]=";
  "			    {.disp = 0,   .type = (Simpletype) SIMPLE_LONGLONG }};";
  "";
  "Typestruct TSulonglong = {.count = 1,   .lb = 0,   .ub=sizeof(unsigned long long),";
  "                            .committed=1, .o_lb = 0, .o_ub = 0, .pairs[0]=";
  "			    {.disp = 0,   .type = (Simpletype) SIMPLE_ULONGLONG }};";
  "";
  "Typestruct TSoffset = {.count = 1,   .lb = 0,   .ub=sizeof(MPI_Offset),"; (* 160 *)
  "                            .committed=1, .o_lb = 0, .o_ub = 0, .pairs[0]=";
  "			    {.disp = 0,   .type = (Simpletype) SIMPLE_OFFSET }};";
  "";
  "";
  "";
  " /* RML NOTE: the order and numbering of the elements of simpletypes[] MUST match";
  "  * the values for the MPI type constants e.g. MPI_INT";
  "  * This should be coded in a better way to avoid human error.";
  "  */";
  ""; (* 170 *)
  "  const Datatype simpletypes[64] =";
  "                      {&TSchar    , &TSshort     , &TSint        , &TSlong,";
  "		       &TSuchar   , &TSushort    , &TSuint       , &TSulong,      //4";
  "		       &TSfloat   , &TSdouble    , &TSldouble    , &TSbyte,       //8";
  "		       &TSpacked  , &TSlower     , &TSupper      , &TSinteger,    //12";
  "		       &TSreal    , &TSdprecision, &TScomplex    , &TSdcomplex,   //16";
  "		       &TSlogical , &TScharacter , &TS2real      , &TS2dprecision,//20";
  "		       &TS2integer, &TSfloat_int , &TSdouble_int , &TSlong_int,   //24";
  "		       &TS2int    , &TSshort_int , &TSldouble_int, &TSinteger1,   //28";
  "                       &TSinteger2, &TSinteger4  , &TSinteger8   , &TSinteger16,  //32"; (* 180 *)
  "                       &TSreal4	  , &TSreal8	 , &TSreal16     , &TScomplex8,   //36";
  "                       &TScomplex16, &TScomplex32, &TSlonglong   , &TSulonglong,  //40";
  "                       &TSoffset";
  "                       };";
  "";
  "";
  "/* optional datatypes (Fortran)  MPI_INTEGER1 MPI_INTEGER2 MPI_INTEGER4 MPI_REAL2 MPI_REAL4 MPI_REAL8 */";
  "";
  "/* optional datatypes (C)  MPI_LONG_LONG_INT */"
].

(** The C files of the library, by name (Makefile.am 2-4; each of them is quoted above, cart.c 1 to type_const.c 189). *)
Definition c_texts : list (string * list string) := [
  ("cart.c", s_cart_c); ("collective.c", s_collective_c); ("comm.c", s_comm_c); ("copy.c", s_copy_c); ("error.c", s_error_c); ("getcount.c", s_getcount_c); ("group.c", s_group_c); ("handles.c", s_handles_c); ("ic_merge.c", s_ic_merge_c); ("info.c", s_info_c); ("list.c", s_list_c); ("mpi.c", s_mpi_c); ("op.c", s_op_c); ("pack.c", s_pack_c); ("probe.c", s_probe_c); ("recv.c", s_recv_c); ("req.c", s_req_c); ("send.c", s_send_c); ("time.c", s_time_c); ("type.c", s_type_c); ("type_const.c", s_type_const_c)
].
